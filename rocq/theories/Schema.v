(** * Field lists: the meaning of binrw's derive for plain structs

    Most structs of /repo are sequences of integers, magics, enums without data, byte arrays and strings, for which the
    derive macro of binrw generates "read (write) the fields in order".  Instead of one record with one reader and one
    writer each, such a struct is given by its list of fields ([field]); a value is the list of the values of its
    fields ([fval]).  The definitions that cite /repo are the field lists, in the files of the formats. *)
From Coq Require Import NArith ZArith List Bool Lia.
From Verif Require Import Base Str.
Import ListNotations.
Open Scope N_scope.

Inductive endian := LE | BE.
Definition int_enc (e : endian) (n : nat) (v : N) : list N := match e with LE => le_enc n v | BE => be_enc n v end.
Definition rd_int (e : endian) (n : nat) : parser N := match e with LE => rd_le n | BE => rd_be n end.

Inductive field : Type :=
| FInt (e : endian) (n : nat)                    (* an unsigned integer of n bytes, or a newtype around it *)
| FMagic (e : endian) (n : nat) (m : N)          (* #[brw(magic = m)] in front of the next field *)
| FEnum (e : endian) (n : nat) (codes : list N)  (* enum of unit variants, each with a magic of n bytes *)
| FEnumF (e : endian) (n : nat) (codes : list N) (* the same with a last variant that takes any other integer *)
| FBytes (n : N)                                 (* [u8; n] *)
| FStr.                                          (* DeviceSQLString *)

Inductive fval : Type :=
| VInt (v : N)
| VUnit                  (* of a magic *)
| VNamed (c : N)         (* the unit variant with code c *)
| VOther (c : N)         (* the catch-all variant *)
| VBytes (bs : list N)
| VStr (d : dstr).

Definition mem (c : N) (codes : list N) : bool := existsb (N.eqb c) codes.

(** Ill-typed combinations do not exist in Rust; here they give [Panic]. *)
Definition enc_field (b : build) (f : field) (v : fval) : res (list N) :=
  match f, v with
  | FInt e n, VInt x => Ok (int_enc e n x)
  | FMagic e n m, VUnit => Ok (int_enc e n m)
  | FEnum e n _, VNamed c => Ok (int_enc e n c)
  | FEnumF e n _, VNamed c => Ok (int_enc e n c)
  | FEnumF e n _, VOther c => Ok (int_enc e n c)
  | FBytes _, VBytes bs => Ok bs
  | FStr, VStr d => dstr_enc b d
  | _, _ => Panic
  end.

(** The reader of strings is a parameter: [rd_dstr b], or a stricter one that is used in statements. *)
Definition rd_field (rs : parser dstr) (f : field) : parser fval :=
  match f with
  | FInt e n => let* x <- rd_int e n; ret (VInt x)
  | FMagic e n m => let* x <- rd_int e n; let* _ <- guard (x =? m) EBadMagic; ret VUnit
  | FEnum e n codes => let* c <- rd_int e n; let* _ <- guard (mem c codes) ENoVariant; ret (VNamed c)
  | FEnumF e n codes => let* c <- rd_int e n; ret (if mem c codes then VNamed c else VOther c)
  | FBytes n => let* bs <- rd_bytes n; ret (VBytes bs)
  | FStr => let* d <- rs; ret (VStr d)
  end.

Fixpoint enc_fields (b : build) (fs : list field) (vs : list fval) : res (list N) :=
  match fs, vs with
  | [], [] => Ok []
  | f :: fs', v :: vs' => do! x <- enc_field b f v; do! y <- enc_fields b fs' vs'; Ok (x ++ y)
  | _, _ => Panic
  end.
Fixpoint rd_fields (rs : parser dstr) (fs : list field) : parser (list fval) :=
  match fs with
  | [] => ret []
  | f :: fs' => let* v <- rd_field rs f; let* vs <- rd_fields rs fs'; ret (v :: vs)
  end.

(** Well-typed values: integers in range, enum values that exist in Rust and are not the catch-all with the code of a
    named variant.  [Q] is what is asked of strings. *)
Definition field_ok (Q : dstr -> Prop) (f : field) (v : fval) : Prop :=
  match f, v with
  | FInt _ n, VInt x => x < 256 ^ N.of_nat n
  | FMagic _ _ _, VUnit => True
  | FEnum _ _ codes, VNamed c => mem c codes = true
  | FEnumF _ _ codes, VNamed c => mem c codes = true
  | FEnumF _ n codes, VOther c => mem c codes = false /\ c < 256 ^ N.of_nat n
  | FBytes n, VBytes bs => len bs = n /\ bytes_ok bs
  | FStr, VStr d => Q d
  | _, _ => False
  end.
Definition fields_ok (Q : dstr -> Prop) (fs : list field) (vs : list fval) : Prop := Forall2 (field_ok Q) fs vs.

(** Sanity of a field list: sizes are positive and codes fit. *)
Definition field_wfb (f : field) : bool :=
  match f with
  | FInt _ n => negb (Nat.eqb n 0)
  | FMagic _ n m => negb (Nat.eqb n 0) && (m <? 256 ^ N.of_nat n)
  | FEnum _ n codes | FEnumF _ n codes => negb (Nat.eqb n 0) && forallb (fun c => c <? 256 ^ N.of_nat n) codes
  | FBytes _ | FStr => true
  end.
Definition fields_wfb (fs : list field) : bool := forallb field_wfb fs.

(** Size in bytes of fields without strings; strings count 0. *)
Definition field_size (f : field) : N :=
  match f with
  | FInt _ n | FMagic _ n _ | FEnum _ n _ | FEnumF _ n _ => N.of_nat n
  | FBytes n => n
  | FStr => 0
  end.
Definition fields_size (fs : list field) : N := fold_right (fun f n => field_size f + n) 0 fs.
Definition field_is_str (f : field) : bool := match f with FStr => true | _ => false end.
Definition no_str (fs : list field) : bool := forallb (fun f => negb (field_is_str f)) fs.
