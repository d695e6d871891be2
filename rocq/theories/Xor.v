(** * XOR streams (src/xor.rs)

    [XorStream] wraps a stream; each byte that passes is combined with the next byte of a cyclic key.  The key is an
    iterator that moves on with each byte; [seek] moves it so that it stays aligned with the stream. *)
From Coq Require Import NArith ZArith List Bool Lia.
From Verif Require Import Base.
Import ListNotations.
Open Scope N_scope.

(** [Cycle<IntoIter<u8>>]: the original sequence and what is left of the current round.  [Cycle::next] takes the next
    item of the round and starts a new round when there is none. *)
Record cyc := { cy_orig : list N; cy_rest : list N }.
Definition cyc_next (c : cyc) : option N * cyc :=
  match cy_rest c with
  | k :: r => (Some k, {| cy_orig := cy_orig c; cy_rest := r |})
  | [] => match cy_orig c with
          | k :: r => (Some k, {| cy_orig := cy_orig c; cy_rest := r |})
          | [] => (None, c)
          end
  end.
(** [self.key.next().unwrap_or(0)]: src/xor.rs:42, 55. *)
Definition cyc_byte (c : cyc) : N * cyc := let (o, c') := cyc_next c in (match o with Some k => k | None => 0 end, c').
(** [for _ in 0..offset { self.key.next(); }]: src/xor.rs:82-84. *)
Definition cyc_skip (n : N) (c : cyc) : cyc := N.iter n (fun c => snd (cyc_next c)) c.

(** The loops of src/xor.rs:41-44 and 51-57: combine the bytes with the following key bytes. *)
Fixpoint xor_bytes (c : cyc) (bs : list N) : list N * cyc :=
  match bs with
  | [] => ([], c)
  | x :: r => let (k, c1) := cyc_byte c in let (r', c2) := xor_bytes c1 r in (N.lxor x k :: r', c2)
  end.

(** The wrapped stream is a buffer with a position, as in [Base]; src/xor.rs:17-21. *)
Record xstream := { xs_buf : list N; xs_pos : N; xs_key : cyc; xs_size : N }.

(** src/xor.rs:26-35; [key.len() as u64]. *)
Definition xs_with_key (buf : list N) (pos : N) (key : list N) : xstream :=
  let key := match key with [] => [0] | _ => key end in
  {| xs_buf := buf; xs_pos := pos; xs_key := {| cy_orig := key; cy_rest := key |}; xs_size := len key |}.

(** src/xor.rs:39-48: [old] is what the caller's buffer holds; the inner stream delivers [got] bytes, which is at most
    the length of the buffer and at most what is left.  The whole buffer is combined with the key, also the part that
    the inner stream did not fill. *)
Definition xs_read (x : xstream) (old : list N) (got : N) : list N * xstream :=
  let filled := takeN got (dropN (xs_pos x) (xs_buf x)) ++ dropN got old in
  let (out, key) := xor_bytes (xs_key x) filled in
  (out, {| xs_buf := xs_buf x; xs_pos := xs_pos x + got; xs_key := key; xs_size := xs_size x |}).

(** [Read::read_exact] of std, which [XorStream] inherits: reads into the rest of the buffer until it is full; a read
    of no bytes is the error UnexpectedEof.  [gots] says how many bytes each inner read delivers. *)
Fixpoint xs_read_exact (x : xstream) (old : list N) (gots : list N) : res (list N * xstream) :=
  match old with
  | [] => Ok ([], x)
  | _ => match gots with
         | [] => Err EIo
         | got :: gots' =>
           if got =? 0 then Err EIo
           else let (out, x1) := xs_read x old got in
                do! r <- xs_read_exact x1 (dropN got out) gots'; Ok (takeN got out ++ fst r, snd r)
         end
  end.
(** [read_exact] of [n] bytes when the inner reads deliver all that is asked ([Cursor], and files away from their end).
    A buffer of zeros is passed, as binrw and std do. *)
Definition xs_read_full (x : xstream) (n : N) : res (list N * xstream) :=
  if n =? 0 then Ok ([], x)
  else if xs_pos x + n <=? len (xs_buf x) then xs_read_exact x (zeros n) [n] else Err EIo.

(** src/xor.rs:51-63: the inner stream takes [got] bytes of the encrypted buffer; the key moves on by the whole buffer. *)
Definition xs_write (x : xstream) (bs : list N) (got : N) : xstream :=
  let (out, key) := xor_bytes (xs_key x) bs in
  {| xs_buf := write_at (xs_buf x) (xs_pos x) (takeN got out); xs_pos := xs_pos x + got; xs_key := key; xs_size := xs_size x |}.
Definition xs_write_full (x : xstream) (bs : list N) : xstream := xs_write x bs (len bs).

(** [SeekFrom]; the inner seek of a buffer: to a negative position is an error. *)
Inductive seek_from := SStart (n : N) | SCur (d : Z) | SEnd (d : Z).
Definition seek_target (buf : list N) (pos : N) (s : seek_from) : res N :=
  let t := match s with SStart n => Z.of_N n | SCur d => (Z.of_N pos + d)%Z | SEnd d => (Z.of_N (len buf) + d)%Z end in
  if (t <? 0)%Z then Err EIo else Ok (Z.to_N t).

(** src/xor.rs:69-87. *)
Definition xs_seek (x : xstream) (s : seek_from) : res (N * xstream) :=
  let old := xs_pos x in
  do! new <- seek_target (xs_buf x) old s;
  let offset := if old <? new then (new - old) mod xs_size x else xs_size x - (old - new) mod xs_size x in
  Ok (new, {| xs_buf := xs_buf x; xs_pos := new; xs_key := cyc_skip offset (xs_key x); xs_size := xs_size x |}).

(** ** Programs over a stream: what a reader or writer of binrw does, depending on the data it has read *)
Inductive prog (A : Type) : Type :=
| PRet (a : A)
| PFail (e : err)
| PRead (n : N) (k : list N -> prog A)
| PWrite (bs : list N) (k : prog A)
| PSeek (s : seek_from) (k : N -> prog A).
Arguments PRet {A}. Arguments PFail {A}. Arguments PRead {A}. Arguments PWrite {A}. Arguments PSeek {A}.

(** On an XOR stream over a stream that delivers and takes all bytes. *)
Fixpoint run_xor {A} (p : prog A) (x : xstream) : res (A * xstream) :=
  match p with
  | PRet a => Ok (a, x)
  | PFail e => Err e
  | PRead n k => do! r <- xs_read_full x n; run_xor (k (fst r)) (snd r)
  | PWrite bs k => run_xor k (xs_write_full x bs)
  | PSeek s k => do! r <- xs_seek x s; run_xor (k (fst r)) (snd r)
  end.

(** ** Specification: the same on a plain stream *)

(** Key byte number [i] of the cyclic key, for any integer [i]. *)
Definition key_at (key : list N) (i : Z) : N := nth (Z.to_nat (i mod Z.of_N (len key))) key 0.
(** [bs] combined with the key bytes from number [i] on. *)
Fixpoint xor_cycle (key : list N) (i : Z) (bs : list N) : list N :=
  match bs with [] => [] | x :: r => N.lxor x (key_at key i) :: xor_cycle key (i + 1) r end.
(** The contents that an XOR stream shows that was created at position [start]. *)
Definition xor_view (key : list N) (start : N) (buf : list N) : list N := xor_cycle key (- Z.of_N start) buf.

Fixpoint run_plain {A} (p : prog A) (s : list N * N) : res (A * (list N * N)) :=
  match p with
  | PRet a => Ok (a, s)
  | PFail e => Err e
  | PRead n k => let (buf, pos) := s in
                 do! r <- rd_bytes n buf pos; run_plain (k (fst r)) (buf, snd r)
  | PWrite bs k => let (buf, pos) := s in run_plain k (write_at buf pos bs, pos + len bs)
  | PSeek t k => let (buf, pos) := s in do! p' <- seek_target buf pos t; run_plain (k p') (buf, p')
  end.
(** No write of the program leaves a gap after the end of the stream. *)
Fixpoint gapless {A} (p : prog A) (s : list N * N) : Prop :=
  match p with
  | PRet _ | PFail _ => True
  | PRead n k => let (buf, pos) := s in match rd_bytes n buf pos with Ok r => gapless (k (fst r)) (buf, snd r) | _ => True end
  | PWrite bs k => let (buf, pos) := s in pos <= len buf /\ gapless k (write_at buf pos bs, pos + len bs)
  | PSeek t k => let (buf, pos) := s in match seek_target buf pos t with Ok p' => gapless (k p') (buf, p') | _ => True end
  end.
