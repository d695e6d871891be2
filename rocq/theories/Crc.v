(** * CRC-16/XMODEM

    The crate [crc16] is not part of the repository; [src/setting.rs:154] calls
    [crc16::State::<crc16::XMODEM>::calculate].  The algorithm with this name has polynomial 0x1021,
    start value 0, no reflection and no final XOR.  This file models it bit by bit; the specification
    by carry-less division is at the end. *)
From Coq Require Import NArith List Bool.
From Verif Require Import Base.
Import ListNotations.
Open Scope N_scope.

(** One bit is shifted into the register (most significant bit first). *)
Definition crc_bit (s : N) (b : bool) : N :=
  N.lxor (N.land (N.shiftl s 1) 65535) (if xorb (N.testbit s 15) b then 4129 else 0).

Definition crc_bits (s : N) (bs : list bool) : N := fold_left crc_bit bs s.

(** The bits of a byte, most significant first. *)
Definition byte_bits (x : N) : list bool := map (N.testbit x) [7; 6; 5; 4; 3; 2; 1; 0].

Definition bits_of (bs : list N) : list bool := flat_map byte_bits bs.

(** [State::<XMODEM>::calculate] (external crate [crc16], used in src/setting.rs:154). *)
Definition crc16 (bs : list N) : N := crc_bits 0 (bits_of bs).

(** ** Specification: polynomials over GF(2) as numbers *)

(** Product of polynomials (carry-less multiplication). *)
Fixpoint clmul_pos (p : positive) (g : N) : N :=
  match p with
  | xH => g
  | xO p => N.shiftl (clmul_pos p g) 1
  | xI p => N.lxor (N.shiftl (clmul_pos p g) 1) g
  end.
Definition clmul (p g : N) : N := match p with N0 => 0 | Npos p => clmul_pos p g end.

(** x^16 + x^12 + x^5 + 1 *)
Definition xmodem_poly : N := 69665.

(** [r] is the remainder of [m] on division by [g] of degree 16. *)
Definition is_rem16 (m g r : N) : Prop := r < 65536 /\ exists q, m = N.lxor (clmul q g) r.

(** The message as one big-endian number. *)
Definition msg_num (bs : list N) : N := fold_left (fun a x => a * 256 + x) bs 0.
