(** * Unicode strings, UTF-8 and UTF-16.

    Models Rust's [String] (a sequence of Unicode scalar values stored as UTF-8) with the std functions that /repo
    uses: [str::len], [str::is_ascii], [as_bytes], [String::from_utf8], [encode_utf16], [String::from_utf16]. *)
From Coq Require Import NArith ZArith List Bool Lia.
From Verif Require Import Base.
Import ListNotations.
Open Scope N_scope.

(** Unicode scalar values: code points except surrogates. *)
Definition is_scalar (c : N) : bool := (c <? 0xD800) || ((0xE000 <=? c) && (c <? 0x110000)).
(** A Rust string. *)
Definition ustr_ok (s : list N) : Prop := Forall (fun c => is_scalar c = true) s.

Definition is_ascii (s : list N) : bool := forallb (fun c => c <? 128) s.

(** ** UTF-8 *)
Definition utf8_enc1 (c : N) : list N :=
  if c <? 0x80 then [c]
  else if c <? 0x800 then [0xC0 + c / 64; 0x80 + c mod 64]
  else if c <? 0x10000 then [0xE0 + c / 4096; 0x80 + c / 64 mod 64; 0x80 + c mod 64]
  else [0xF0 + c / 262144; 0x80 + c / 4096 mod 64; 0x80 + c / 64 mod 64; 0x80 + c mod 64].
Definition utf8_enc (s : list N) : list N := flat_map utf8_enc1 s.

Definition in_range (lo hi b : N) : bool := (lo <=? b) && (b <=? hi).

(** Strict decoding as by [String::from_utf8] (Unicode 15, table 3-7). *)
Fixpoint utf8_dec (bs : list N) : option (list N) :=
  match bs with
  | [] => Some []
  | b0 :: r0 =>
    if b0 <? 0x80 then option_map (cons b0) (utf8_dec r0)
    else match r0 with
    | [] => None
    | b1 :: r1 =>
      if in_range 0xC2 0xDF b0 then
        if in_range 0x80 0xBF b1 then option_map (cons ((b0 - 0xC0) * 64 + (b1 - 0x80))) (utf8_dec r1) else None
      else match r1 with
      | [] => None
      | b2 :: r2 =>
        if in_range 0xE0 0xEF b0 then
          if in_range (if b0 =? 0xE0 then 0xA0 else 0x80) (if b0 =? 0xED then 0x9F else 0xBF) b1 && in_range 0x80 0xBF b2
          then option_map (cons ((b0 - 0xE0) * 4096 + (b1 - 0x80) * 64 + (b2 - 0x80))) (utf8_dec r2)
          else None
        else match r2 with
        | [] => None
        | b3 :: r3 =>
          if in_range 0xF0 0xF4 b0 then
            if in_range (if b0 =? 0xF0 then 0x90 else 0x80) (if b0 =? 0xF4 then 0x8F else 0xBF) b1
               && in_range 0x80 0xBF b2 && in_range 0x80 0xBF b3
            then option_map (cons ((b0 - 0xF0) * 262144 + (b1 - 0x80) * 4096 + (b2 - 0x80) * 64 + (b3 - 0x80)))
                   (utf8_dec r3)
            else None
          else None
        end
      end
    end
  end.

(** [str::len]: the number of UTF-8 bytes. *)
Definition utf8_len (s : list N) : N := len (utf8_enc s).

(** ** UTF-16 *)
Definition utf16_enc1 (c : N) : list N :=
  if c <? 0x10000 then [c]
  else [0xD800 + (c - 0x10000) / 1024; 0xDC00 + (c - 0x10000) mod 1024].
Definition utf16_enc (s : list N) : list N := flat_map utf16_enc1 s.

(** Strict decoding as by [String::from_utf16]: unpaired surrogates are an error. *)
Fixpoint utf16_dec (us : list N) : option (list N) :=
  match us with
  | [] => Some []
  | u :: r =>
    if in_range 0xD800 0xDBFF u then
      match r with
      | [] => None
      | v :: r' => if in_range 0xDC00 0xDFFF v
                   then option_map (cons (0x10000 + (u - 0xD800) * 1024 + (v - 0xDC00))) (utf16_dec r')
                   else None
      end
    else if in_range 0xDC00 0xDFFF u then None
    else option_map (cons u) (utf16_dec r)
  end.
