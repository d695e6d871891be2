(** * Base: results, machine integers, byte buffers, readers and writers.

    This file models the parts of Rust, std::io and binrw that the modelled code of /repo relies on.  It cites no
    file of /repo except where noted: these are the semantics of the language and of third-party crates, and part of
    the trusted base (see DESIGN.md). *)
From Coq Require Import NArith ZArith List Bool Lia Arith.
From Coq Require Import ZifyBool ZifyNat ZifyN.
Import ListNotations.
Open Scope N_scope.

(** ** Results *)

(** The kinds of error values that the modelled functions return. *)
Inductive err : Type :=
| EIo              (* std::io::Error: end of file, invalid seek *)
| EBadMagic        (* binrw::Error::BadMagic *)
| EAssertFail      (* binrw::Error::AssertFail *)
| ENoVariant       (* binrw::Error::NoVariantMatch / EnumErrors *)
| ECustom.         (* binrw::Error::Custom *)

(** [Ok v]: normal return.  [Err e]: an error value is returned.  [Panic]: the thread panics. *)
Inductive res (A : Type) : Type :=
| Ok (a : A)
| Err (e : err)
| Panic.
Arguments Ok {A} a.
Arguments Err {A} e.
Arguments Panic {A}.

Definition res_bind {A B} (r : res A) (f : A -> res B) : res B :=
  match r with Ok a => f a | Err e => Err e | Panic => Panic end.

Notation "'do!' x <- r ; k" := (res_bind r (fun x => k))
  (at level 200, x pattern, r at level 100, k at level 200, right associativity).

(** ** Machine integers

    Values of unsigned machine types are [N]; [width] bounds are explicit.  Overflowing [+], [-], [*] panic when
    overflow checks are on (cargo's dev and test profile) and wrap when they are off (release profile). *)
Inductive build : Type := Debug | Release.

Definition two_p (w : N) : N := 2 ^ w.

Definition ovf (b : build) (w v : N) : res N :=
  match b with Debug => Panic | Release => Ok (v mod 2 ^ w) end.

(** [x + y] on an unsigned type of [w] bits. *)
Definition wadd (b : build) (w x y : N) : res N :=
  if x + y <? 2 ^ w then Ok (x + y) else ovf b w (x + y).

(** [x - y] on an unsigned type of [w] bits ([y < 2^w]). *)
Definition wsub (b : build) (w x y : N) : res N :=
  if y <=? x then Ok (x - y) else ovf b w (x + 2 ^ w - y).

(** [x * y] on an unsigned type of [w] bits. *)
Definition wmul (b : build) (w x y : N) : res N :=
  if x * y <? 2 ^ w then Ok (x * y) else ovf b w (x * y).

Definition is_u8 (v : N) : Prop := v < 256.
Definition is_u16 (v : N) : Prop := v < 65536.
Definition is_u32 (v : N) : Prop := v < 4294967296.
Definition is_u64 (v : N) : Prop := v < 18446744073709551616.

(** ** Byte buffers *)

Definition len {A} (l : list A) : N := N.of_nat (length l).
Definition takeN {A} (n : N) (l : list A) : list A := firstn (N.to_nat n) l.
Definition dropN {A} (n : N) (l : list A) : list A := skipn (N.to_nat n) l.
Definition getN {A} (l : list A) (i : N) : option A := nth_error l (N.to_nat i).
Definition zeros (n : N) : list N := repeat 0 (N.to_nat n).

Definition bytes_ok (l : list N) : Prop := Forall (fun b => b < 256) l.

(** Little- and big-endian integers. *)
Fixpoint le_enc (n : nat) (v : N) : list N :=
  match n with O => [] | S n' => v mod 256 :: le_enc n' (v / 256) end.
Fixpoint le_dec (l : list N) : N :=
  match l with [] => 0 | b :: l' => b + 256 * le_dec l' end.
Definition be_enc (n : nat) (v : N) : list N := rev (le_enc n v).
Definition be_dec (l : list N) : N := le_dec (rev l).

(** ** Readers

    A reader is a function of the whole contents of the stream and the current position; it cannot change the
    contents.  It returns the value and the new position.  On an error binrw restores the position, so no position
    is returned with errors. *)
Definition parser (A : Type) : Type := list N -> N -> res (A * N).

Definition ret {A} (a : A) : parser A := fun _ pos => Ok (a, pos).
Definition fail {A} (e : err) : parser A := fun _ _ => Err e.
Definition bind {A B} (p : parser A) (f : A -> parser B) : parser B :=
  fun buf pos =>
    match p buf pos with
    | Ok (a, pos') => f a buf pos'
    | Err e => Err e
    | Panic => Panic
    end.
Definition lift {A} (r : res A) : parser A :=
  fun _ pos => match r with Ok a => Ok (a, pos) | Err e => Err e | Panic => Panic end.

Notation "'let*' x <- p ; k" := (bind p (fun x => k))
  (at level 200, x pattern, p at level 100, k at level 200, right associativity).

Definition guard (b : bool) (e : err) : parser unit := if b then ret tt else fail e.

(** [Seek::stream_position] and [seek(SeekFrom::Start)].  A seek past the end succeeds. *)
Definition tell : parser N := fun _ pos => Ok (pos, pos).
Definition seek_to (p : N) : parser unit := fun _ _ => Ok (tt, p).
(** [seek(SeekFrom::Current(d))]; a seek before the start is an error. *)
Definition seek_rel (d : Z) : parser unit :=
  fun _ pos => let p := (Z.of_N pos + d)%Z in if (p <? 0)%Z then Err EIo else Ok (tt, Z.to_N p).

(** [read_exact] of [n] bytes; reading zero bytes always succeeds. *)
Definition rd_bytes (n : N) : parser (list N) :=
  fun buf pos =>
    if n =? 0 then Ok ([], pos)
    else if pos + n <=? len buf then Ok (takeN n (dropN pos buf), pos + n) else Err EIo.

Definition rd_le (n : nat) : parser N := let* bs <- rd_bytes (N.of_nat n); ret (le_dec bs).
Definition rd_be (n : nat) : parser N := let* bs <- rd_bytes (N.of_nat n); ret (be_dec bs).
Definition rd_u8 : parser N := rd_le 1.

(** binrw [magic]: reads an integer and fails with BadMagic if it differs. *)
Definition magic_le (n : nat) (m : N) : parser unit :=
  let* v <- rd_le n; guard (v =? m) EBadMagic.
Definition magic_be (n : nat) (m : N) : parser unit :=
  let* v <- rd_be n; guard (v =? m) EBadMagic.

(** Reads [n] items ([count = n]). *)
Fixpoint rd_count {A} (n : nat) (p : parser A) : parser (list A) :=
  match n with
  | O => ret []
  | S n' => let* x <- p; let* xs <- rd_count n' p; ret (x :: xs)
  end.

(** binrw enums: try the variants in order, from the same position; the first success wins.  A panic is not caught. *)
Definition orelse {A} (p q : parser A) : parser A :=
  fun buf pos => match p buf pos with Err _ => q buf pos | r => r end.

(** binrw [NullString]: bytes up to a zero byte, which is consumed and dropped.  [NullWideString]: 16-bit units. *)
Fixpoint rd_until0 (fuel : nat) (p : parser N) : parser (list N) :=
  match fuel with
  | O => fail EIo
  | S f => let* b <- p; if b =? 0 then ret [] else let* bs <- rd_until0 f p; ret (b :: bs)
  end.
(** The number of items is bounded by the buffer length, so this fuel suffices: see [rd_until0_fuel] in BaseFacts. *)
Definition rd_nullstring : parser (list N) := fun buf pos => rd_until0 (S (length buf)) rd_u8 buf pos.

(** binrw [pad_size_to = n] on reading: afterwards the position is at least [start + n]. *)
Definition rd_pad_to {A} (n : N) (p : parser A) : parser A :=
  fun buf pos =>
    match p buf pos with
    | Ok (a, pos') => Ok (a, if pos' - pos <? n then pos + n else pos')
    | r => r
    end.

(** ** Writers

    A writer maps contents and position to contents and position.  The stream grows on demand ([File] or
    [Cursor<Vec<u8>>]); a gap between the end and the write position is filled with zeros. *)
Definition writer : Type := list N * N -> res (list N * N).

Definition pad_to (n : N) (buf : list N) : list N := buf ++ zeros (n - len buf).

(** Contents after writing [bs] at [pos]. *)
Definition write_at (buf : list N) (pos : N) (bs : list N) : list N :=
  match bs with
  | [] => buf
  | _ => takeN pos (pad_to pos buf) ++ bs ++ dropN (pos + len bs) buf
  end.

Definition wr_bytes (bs : list N) : writer := fun '(buf, pos) => Ok (write_at buf pos bs, pos + len bs).
Definition wr_seek (p : N) : writer := fun '(buf, _) => Ok (buf, p).
Definition wr_seek_rel (d : Z) : writer :=
  fun '(buf, pos) => let p := (Z.of_N pos + d)%Z in if (p <? 0)%Z then Err EIo else Ok (buf, Z.to_N p).
Definition wr_seq (w1 w2 : writer) : writer := fun s => do! s' <- w1 s; w2 s'.
Definition wr_err (e : err) : writer := fun _ => Err e.
Definition wr_panic : writer := fun _ => Panic.
Definition wr_nil : writer := fun s => Ok s.
Fixpoint wr_all (ws : list writer) : writer :=
  match ws with [] => wr_nil | w :: ws' => wr_seq w (wr_all ws') end.

(** ** Vocabulary for statements about buffers *)

(** The bytes [bs] are stored in [buf] at position [pos]. *)
Definition has (buf : list N) (pos : N) (bs : list N) : Prop :=
  exists pre post, buf = pre ++ bs ++ post /\ len pre = pos.

(** A boolean that decides [has]. *)
Fixpoint list_eqb (l1 l2 : list N) : bool :=
  match l1, l2 with
  | [], [] => true
  | a :: l1', b :: l2' => (a =? b) && list_eqb l1' l2'
  | _, _ => false
  end.
Definition hasb (buf : list N) (pos : N) (bs : list N) : bool :=
  (pos <=? len buf) && list_eqb (takeN (len bs) (dropN pos buf)) bs.
