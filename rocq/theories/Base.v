(* Machine arithmetic, errno values, outcomes.  Models lib/common.h. *)
From Coq Require Import NArith ZArith List Bool Lia.
Import ListNotations.
Open Scope N_scope.

(* 2^64 and 2^32; unsigned C arithmetic is reduced with these. *)
Definition two64 : N := 18446744073709551616.
Definition two63 : N := 9223372036854775808.
Definition two32 : N := 4294967296.

(* Value of a uint64_t / uint32_t / uint16_t / uint8_t expression. *)
Definition w64 (x : N) : N := x mod two64.
Definition w32 (x : N) : N := x mod two32.
Definition w16 (x : N) : N := x mod 65536.
Definition w8 (x : N) : N := x mod 256.

(* Unsigned 64/32-bit subtraction a - b. *)
Definition sub64 (a b : N) : N := w64 (a + two64 - b).
Definition sub32 (a b : N) : N := w32 (a + two32 - b).

(* errno values used by the library (asm-generic/errno*.h). *)
Definition EPERM : N := 1.
Definition ENOENT : N := 2.
Definition EIO : N := 5.
Definition EAGAIN : N := 11.
Definition ENOMEM : N := 12.
Definition EACCES : N := 13.
Definition EFAULT : N := 14.
Definition EBUSY : N := 16.
Definition EEXIST : N := 17.
Definition EINVAL : N := 22.
Definition ENOSPC : N := 28.
Definition ENOMSG : N := 42.
Definition EPROTO : N := 71.
Definition ENOTSUP : N := 95.
Definition ECONNRESET : N := 104.
Definition ENOTCONN : N := 107.

(* Ways in which the C program leaves defined behaviour. *)
Inductive crash : Type :=
| OutOfBounds    (* access outside an object, or through a NULL pointer *)
| AssertFailed   (* assert() / abort() *)
| Diverges       (* a loop that never terminates *)
| Uninitialised. (* use of indeterminate memory *)

(* Outcome of a C function: a value, -1 with an errno, or a crash. *)
Inductive outcome (A : Type) : Type :=
| Ok (a : A)
| Err (e : N)
| Crash (c : crash).
Arguments Ok {A} a.
Arguments Err {A} e.
Arguments Crash {A} c.

(* lib/common.h:61-62 ROUND_DOWN, ROUND_UP on 64-bit values:
   x & ~(a - 1) and ROUND_DOWN(x + a - 1, a). *)
Definition round_down (x a : N) : N := N.ldiff x (sub64 a 1).
Definition round_up (x a : N) : N := round_down (sub64 (w64 (x + a)) 1) a.

(* lib/common.h:80-86 satadd_u32: the sum is computed in 32 bits, then compared. *)
Definition satadd_u32 (a b : N) : N :=
  let res := w32 (a + b) in
  if res <? a then two32 - 1 else res.

(* lib/common.h:88-94 satadd_u64. *)
Definition satadd_u64 (a b : N) : N :=
  let res := w64 (a + b) in
  if res <? a then two64 - 1 else res.

(* lib/common.h:103-115 get_bitmap_size.  The signed return type is not modelled: the
   result is below 2^61. *)
Definition get_bitmap_size (region_size pgsize : N) : outcome N :=
  if pgsize =? 0 then Err EINVAL
  else if region_size <? pgsize then Err EINVAL
  else
    let nr_pages := region_size / pgsize + (if region_size mod pgsize =? 0 then 0 else 1) in
    Ok (round_up nr_pages 64 / 8).

(* lib/migration.c:68-71 (migr_get_pgsize via sysconf) and getpagesize(): the host page size.
   Simplification: fixed to 4096. *)
Definition PAGE_SIZE : N := 4096.

(* PROT_READ / PROT_WRITE of mmap(2). *)
Definition PROT_READ : N := 1.
Definition PROT_WRITE : N := 2.

(* Bit test as used in C: (x & m) != 0. *)
Definition has (x m : N) : bool := negb (N.land x m =? 0).

(* Replace element i of a list (C array store a[i] = v within bounds). *)
Fixpoint set_nth {A} (i : nat) (v : A) (l : list A) : list A :=
  match l, i with
  | [], _ => []
  | _ :: t, O => v :: t
  | x :: t, S j => x :: set_nth j v t
  end.
