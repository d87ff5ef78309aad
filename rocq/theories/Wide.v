(** * Wide: the vector types of src/irc/wide (model, no proofs).

    The three compiled backends are src/irc/wide/x86_64/sse2.rs,
    src/irc/wide/x86_64/avx2.rs and src/irc/wide/aarch64/neon.rs
    (x86_64/avx512.rs is not compiled: src/irc/wide/x86_64.rs).  A vector is the
    list of its byte lanes, lane 0 first.  The intrinsics are modelled by their
    lane semantics; this is part of the trusted base. *)

From Verif Require Import Base.

Inductive backend := Sse2 | Avx2 | Neon.

(** [Vector::SIZE]: sse2.rs:14, avx2.rs:14, neon.rs:50. *)
Definition vsize (v : backend) : nat :=
  match v with Sse2 => 16 | Avx2 => 32 | Neon => 16 end.

Definition vector := list byte.

(** [Vector::fill]: sse2.rs:16-19, avx2.rs:16-19, neon.rs:52-55. *)
Definition vfill (v : backend) (x : byte) : vector := repeat x (vsize v).

(** [Vector::load_unaligned(data, offset)]: sse2.rs:25-30, avx2.rs:25-32,
    neon.rs:61-66.  Reading outside [data] is undefined behaviour. *)
Definition load_unaligned (v : backend) (data : list byte) (offset : nat) : res vector :=
  if offset + vsize v <=? length data
  then Ret (sub data offset (offset + vsize v))
  else Ub.

(** [Vector::load_aligned(data, offset)]: sse2.rs:37-43, avx2.rs:39-47,
    neon.rs:73-79.  [addr] is the address of [data[0]].  A load that is not
    [SIZE]-aligned is undefined behaviour on x86; on NEON it only violates the
    function's documented contract (and its debug assertion), which we also
    count as [Ub]. *)
Definition load_aligned (v : backend) (addr : nat) (data : list byte) (offset : nat) : res vector :=
  if offset + vsize v <=? length data
  then if (addr + offset) mod vsize v =? 0
       then Ret (sub data offset (offset + vsize v))
       else Ub
  else Ub.

(** [Vector::load_unaligned_remainder(data, offset)]: sse2.rs:48-55,
    avx2.rs:52-59, neon.rs:84-91.  Copies [data[offset..]] into a zeroed
    buffer; the subtraction and both slicings are checked. *)
Definition load_unaligned_remainder (v : backend) (data : list byte) (offset : nat) : res vector :=
  let! n := usize_sub (length data) offset in
  if n <=? vsize v
  then Ret (skipn offset data ++ repeat x00 (vsize v - n))
  else Panic.

(** Lane-wise equality of two vectors, all-ones where equal
    ([_mm_cmpeq_epi8], [_mm256_cmpeq_epi8], [vceqq_u8]). *)
Fixpoint cmpeq (x y : vector) : vector :=
  match x, y with
  | a :: x', c :: y' => (if Byte.eqb a c then xff else x00) :: cmpeq x' y'
  | _, _ => []
  end.

(** [Vector::eq(self, byte)]: sse2.rs:58-61, avx2.rs:61-64, neon.rs:93-96. *)
Definition veq (v : backend) (x : vector) (c : byte) : vector :=
  cmpeq x (vfill v c).

(** [_mm_movemask_epi8] / [_mm256_movemask_epi8]: bit [i] is the top bit of
    lane [i]. *)
Fixpoint x86_movemask (x : vector) : N :=
  match x with
  | [] => 0
  | a :: x' => (N.b2n (N.testbit (Byte.to_N a) 7) + 2 * x86_movemask x')%N
  end.

(** neon.rs:98-106: reinterpret as little-endian [u16] lanes, [vshrn_n_u16(_, 4)]
    (shift right by 4, keep the low byte), reinterpret as one little-endian
    [u64]. *)
Fixpoint neon_movemask (x : vector) : N :=
  match x with
  | lo :: hi :: x' =>
    (N.shiftr (Byte.to_N lo + 256 * Byte.to_N hi) 4 mod 256 + 256 * neon_movemask x')%N
  | _ => 0%N
  end.

(** [Vector::movemask]: sse2.rs:63-69, avx2.rs:66-72, neon.rs:98-106. *)
Definition movemask (v : backend) (x : vector) : N :=
  match v with
  | Sse2 | Avx2 => x86_movemask x
  | Neon => neon_movemask x
  end.

(** Width of the [Mask] integer: sse2.rs:74, avx2.rs:77, neon.rs:111. *)
Definition mask_bits (v : backend) : nat :=
  match v with Sse2 | Avx2 => 32 | Neon => 64 end.

(** [Mask::has_match]: sse2.rs:77-80, avx2.rs:80-83, neon.rs:114-118. *)
Definition has_match (m : N) : bool := negb (m =? 0)%N.

Fixpoint pos_ctz (p : positive) : nat :=
  match p with
  | xO p' => S (pos_ctz p')
  | _ => 0
  end.

(** [trailing_zeros], as in [Mask::first_match]: sse2.rs:82-85, avx2.rs:85-88,
    neon.rs:120-123.  The result is [Match.0], a bit position. *)
Definition first_match (v : backend) (m : N) : nat :=
  match m with
  | N0 => mask_bits v
  | Npos p => pos_ctz p
  end.

(** [Mask::clear_to(m)]: sse2.rs:87-91 and avx2.rs:90-94 (u32), neon.rs:125-129
    (u64).  [31 - m.0] and [63 - (m.0 + 3)] are checked subtractions. *)
Definition clear_to (v : backend) (mask : N) (m : nat) : res N :=
  match v with
  | Sse2 | Avx2 =>
    let! sh := usize_sub 31 m in
    Ret (N.land mask (N.lxor (N.shiftr 0xffffffff (N.of_nat sh)) 0xffffffff))
  | Neon =>
    let! sh := usize_sub 63 (m + 3) in
    Ret (N.land mask (N.lxor (N.shiftr 0xffffffffffffffff (N.of_nat sh)) 0xffffffffffffffff))
  end.

(** [Match::as_index]: sse2.rs:99-102, avx2.rs:102-105, neon.rs:137-141
    ([self.0 >> 2]). *)
Definition as_index (v : backend) (m : nat) : nat :=
  match v with
  | Sse2 | Avx2 => m
  | Neon => m / 4
  end.
