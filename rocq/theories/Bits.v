(* Model of the bit primitives of /repo/src/common.hpp. *)
From Verif Require Export Base.

Definition M64 : N := 0xffffffffffffffff.   (* 2^64-1, u64 (common.hpp:124) *)
Definition M32 : N := 0xffffffff.           (* 2^32-1, u32 (common.hpp:122) *)
Definition w64 (x : N) : N := x mod 0x10000000000000000.  (* conversion to u64 *)
Definition w32 (x : N) : N := x mod 0x100000000.          (* conversion to u32 *)
Definition sub64 (a b : N) : N := w64 (a + 0x10000000000000000 - w64 b).  (* u64 subtraction *)
Definition sub32 (a b : N) : N := w32 (a + 0x100000000 - w32 b).          (* u32 subtraction *)
Definition add64 (a b : N) : N := w64 (a + b).
Definition not64 (a : N) : N := N.lxor a M64.             (* ~ on a u64 *)

(* number of trailing zeros.  Models __builtin_ctzll / _BitScanForward64 as used by
   firstOneFromLSB, common.hpp:139-143 and 159-161.  The builtin is undefined on 0; this
   function returns 0 there and every caller in the model tests the word first, as the C++ does. *)
Fixpoint ctz_pos (p : positive) : N :=
  match p with xO q => 1 + ctz_pos q | _ => 0 end.
Definition ctz (w : N) : N := match w with 0 => 0 | Npos p => ctz_pos p end.
Definition firstOneFromLSB (w : N) : N := ctz w.

(* x & (x-1), the idiom that clears the lowest set bit, bitboard.hpp:171 and 180 *)
Definition clearLowest (w : N) : N := N.land w (sub64 w 1).

(* population count. Models _mm_popcnt_u64, common.hpp:208-210 *)
Fixpoint popcount_pos (p : positive) : N :=
  match p with xH => 1 | xO q => popcount_pos q | xI q => 1 + popcount_pos q end.
Definition popcount (w : N) : N := match w with 0 => 0 | Npos p => popcount_pos p end.
Definition count1s (w : N) : N := popcount w.

(* Portable firstOneFromLSB, common.hpp:176-189 *)
Definition BitTable : list N := [
  63; 30; 3; 32; 25; 41; 22; 33; 15; 50; 42; 13; 11; 53; 19; 34; 61; 29; 2;
  51; 21; 43; 45; 10; 18; 47; 1; 54; 9; 57; 0; 35; 62; 31; 40; 4; 49; 5; 52;
  26; 60; 6; 23; 44; 46; 27; 56; 16; 7; 39; 48; 24; 59; 14; 12; 55; 38; 28;
  58; 20; 37; 17; 36; 8 ].
Definition firstOneFromLSB_portable (b : N) : N :=
  let tmp := N.lxor b (sub64 b 1) in
  let old := w32 (N.lxor (N.land tmp 0xffffffff) (N.shiftr tmp 32)) in
  nthN 0 BitTable (N.shiftr (w32 (old * 0x783a9b23)) 26).

(* byte swap.  Models __builtin_bswap64, common.hpp:155-157 and 171-173, and the byte order
   reversal done by _mm_shuffle_epi8 within each 64-bit half, bitboard.hpp:223-226 *)
Definition byteOf (x i : N) : N := N.land (N.shiftr x (8 * i)) 255.
Definition bswap64 (x : N) : N :=
  N.lor (N.shiftl (byteOf x 0) 56) (N.lor (N.shiftl (byteOf x 1) 48)
  (N.lor (N.shiftl (byteOf x 2) 40) (N.lor (N.shiftl (byteOf x 3) 32)
  (N.lor (N.shiftl (byteOf x 4) 24) (N.lor (N.shiftl (byteOf x 5) 16)
  (N.lor (N.shiftl (byteOf x 6) 8) (byteOf x 7))))))).

(* Portable count1s, common.hpp:212-221 *)
Definition count1s_portable (x0 : N) : N :=
  let x1 := sub64 x0 (N.land (N.shiftr x0 1) 0x5555555555555555) in
  let x2 := w64 (N.land x1 0x3333333333333333 + N.land (N.shiftr x1 2) 0x3333333333333333) in
  let x3 := N.land (w64 (x2 + N.shiftr x2 4)) 0x0f0f0f0f0f0f0f0f in
  let x4 := w64 (x3 + N.shiftr x3 8) in
  let x5 := w64 (x4 + N.shiftr x4 16) in
  let x6 := w64 (x5 + N.shiftr x5 32) in
  N.land (w32 x6) 0x7f.
