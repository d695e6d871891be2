(** * DeviceSQL strings: /repo/src/pdb/string.rs *)
From Coq Require Import NArith ZArith List Bool Lia.
From Verif Require Import Base Utf.
Import ListNotations.
Open Scope N_scope.

(** src/pdb/string.rs:25-36 *)
Inductive str_err := TooLong | InvalidISRC | Encoding.

(** src/pdb/string.rs:62, 217-264.  The nested enums [DeviceSQLStringImpl] and [LongBody] are flattened:
    [Long { content: LongBody::X(v) }] is [X v].  [DSIsrc] holds the bytes of binrw's [NullString]. *)
Inductive dstr : Type :=
| DSShort (content : list N)    (* ShortASCII: bytes *)
| DSIsrc (s : list N)           (* Long, LongBody::Isrc: bytes *)
| DSAscii (s : list N)          (* Long, LongBody::Ascii: bytes *)
| DSUcs2 (us : list N).         (* Long, LongBody::Ucs2le: 16-bit units *)

(** src/pdb/string.rs:20: ((u8::MAX >> 1) - 1) *)
Definition max_shortstr_size : N := N.shiftr 255 1 - 1.

(** src/pdb/string.rs:65-87.  The argument is a Rust string as a list of scalar values. *)
Definition dstr_new (s : list N) : dstr + str_err :=
  let l := utf8_len s in
  let only_ascii := is_ascii s in
  if only_ascii && (l <=? max_shortstr_size) then inl (DSShort (utf8_enc s))
  else if l <=? 32767 then
    if only_ascii then inl (DSAscii (utf8_enc s)) else inl (DSUcs2 (utf16_enc s))
  else inr TooLong.

(** src/pdb/string.rs:133-137 *)
Definition dstr_empty : dstr := DSShort [].

(** src/pdb/string.rs:95-107 *)
Definition dstr_new_isrc (s : list N) : dstr + str_err :=
  match s with
  | [] => inl dstr_empty
  | _ => if negb (utf8_len s =? 12) || negb (is_ascii s) then inr InvalidISRC else inl (DSIsrc (utf8_enc s))
  end.

(** src/pdb/string.rs:112-127 *)
Definition dstr_into_string (d : dstr) : list N + str_err :=
  match d with
  | DSShort v | DSAscii v | DSIsrc v => match utf8_dec v with Some s => inl s | None => inr Encoding end
  | DSUcs2 v => match utf16_dec v with Some s => inl s | None => inr Encoding end
  end.

(** src/pdb/string.rs:146-172: [Display]; only whether it panics is modelled. *)
Definition dstr_display_panics (d : dstr) : bool :=
  match d with
  | DSShort v | DSAscii v => match utf8_dec v with Some _ => false | None => true end
  | DSIsrc _ | DSUcs2 _ => false
  end.

(** src/pdb/string.rs:267-276: [LongBody::byte_count]; [None] is the TooLong error. *)
Definition dstr_byte_count (d : dstr) : option N :=
  let n := match d with DSShort v => len v | DSIsrc v => len v + 2 | DSAscii v => len v | DSUcs2 v => len v * 2 end in
  if n <? 65536 then Some n else None.

(** src/pdb/string.rs:277-282: [LongBody::flags] *)
Definition dstr_flags (d : dstr) : N := match d with DSAscii _ => 0x40 | _ => 0x90 end.

Definition unwrap {A} (o : option A) : res A := match o with Some a => Ok a | None => Panic end.

(** The bytes of a [LongBody]: src/pdb/string.rs:248-264 *)
Definition dstr_body (d : dstr) : list N :=
  match d with
  | DSShort v => v
  | DSIsrc v => 3 :: v ++ [0]
  | DSAscii v => v
  | DSUcs2 us => flat_map (le_enc 2) us
  end.

(** Writing: src/pdb/string.rs:217-246.  Result: the bytes that are written. *)
Definition dstr_enc (b : build) (d : dstr) : res (list N) :=
  match d with
  | DSShort v => Ok (N.lor (2 * (len v + 1)) 1 mod 256 :: v)
  | _ =>
    do! n <- unwrap (dstr_byte_count d);
    do! l <- wadd b 16 n 4;
    Ok (dstr_flags d :: le_enc 2 l ++ 0 :: dstr_body d)
  end.
Definition dstr_write (b : build) (d : dstr) : writer := fun s => do! bs <- dstr_enc b d; wr_bytes bs s.

(** Reading: src/pdb/string.rs:219-230 *)
Definition rd_dstr_short (b : build) : parser dstr :=
  let* header <- rd_u8;
  let* _ <- guard (N.land header 1 =? 1) EAssertFail;
  let* n <- lift (wsub b 64 (N.shiftr header 1) 1);
  let* content <- rd_bytes n;
  ret (DSShort content).

(** src/pdb/string.rs:248-264, variants in source order *)
Definition rd_longbody (flags l : N) : parser dstr :=
  orelse (let* _ <- guard (flags =? 0x90) EAssertFail; let* _ <- magic_le 1 3;
          let* s <- rd_nullstring; ret (DSIsrc s))
 (orelse (let* _ <- guard (flags =? 0x40) EAssertFail; let* v <- rd_bytes l; ret (DSAscii v))
         (let* _ <- guard (flags =? 0x90) EAssertFail; let* _ <- guard (l mod 2 =? 0) EAssertFail;
          let* us <- rd_count (N.to_nat (l / 2)) (rd_le 2); ret (DSUcs2 us))).

(** src/pdb/string.rs:232-245 *)
Definition rd_dstr_long (b : build) : parser dstr :=
  let* flags <- rd_u8;
  let* _ <- guard (N.land flags 1 =? 0) EAssertFail;
  let* length <- rd_le 2;
  let* l <- lift (wsub b 16 length 4);
  let* _ <- magic_le 1 0;
  rd_longbody flags l.

Definition rd_dstr (b : build) : parser dstr := orelse (rd_dstr_short b) (rd_dstr_long b).

(** src/pdb/string.rs:184-199 *)
Definition dstr_heap (b : build) (d : dstr) : res N :=
  match d with
  | DSShort v => wadd b 16 1 (len v mod 65536)
  | _ => do! n <- unwrap (dstr_byte_count d); wadd b 16 4 n
  end.

(** src/pdb/string.rs:201-210 *)
Definition dstr_align (d : dstr) : N := match d with DSUcs2 _ => 4 | _ => 1 end.

(** The invariant of string values: the fields are private (62), so every value comes from [new], [new_isrc], [empty]
    or from reading.  Shown to be established by these in StrFacts. *)
Definition dstr_inv (d : dstr) : Prop :=
  match d with
  | DSShort v => len v <= 126 /\ bytes_ok v
  | DSIsrc v => bytes_ok v
  | DSAscii v => bytes_ok v
  | DSUcs2 us => Forall is_u16 us
  end.
