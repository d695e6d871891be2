(** * Property C115: exactly which strings and rows of databases are accepted, what they say and where they end *)
From Coq Require Import NArith ZArith List Bool Lia.
From Coq Require Import ZifyBool ZifyNat ZifyN.
From Verif Require Import Base BaseFacts Str StrFacts Schema SchemaFacts Oa OaFacts Rows RowFacts Layout LayoutDb AnlzPanic Robust AcceptStr.
Import ListNotations.
Open Scope N_scope.

(** A string is read, as [d] and up to [fin], if and only if it is stored in one of the four forms. *)
Theorem c115_string : forall b buf pos d fin, bytes_ok buf -> len buf < 2 ^ 64 -> (rd_dstr b buf pos = Ok (d, fin) <-> string_in b buf pos d fin).
Proof. exact string_exact. Qed.
Print Assumptions c115_string.
(** A row of a known type is read, with the numbers [ns] and the strings [ds] and up to [fin], if and only if it is stored so. *)
Theorem c115_row : forall b k buf pos ns ds fin, bytes_ok buf -> len buf < 2 ^ 64 ->
  ((exists r, rd_row (rd_dstr b) (PT k) buf pos = Ok (r, fin) /\ row_says r k ns ds) <-> row_in b k buf pos ns ds fin).
Proof. intros b k buf pos ns ds fin HB HL. now apply row_exact. Qed.
Print Assumptions c115_row.
(** Whatever is read says something, so anything not stored so is refused: with an error, or in debug builds with a panic. *)
Theorem c115_refused : forall b k buf pos, bytes_ok buf -> len buf < 2 ^ 64 -> ~ (exists ns ds fin, row_in b k buf pos ns ds fin) ->
  (exists e, rd_row (rd_dstr b) (PT k) buf pos = Err e) \/ b = Debug /\ rd_row (rd_dstr b) (PT k) buf pos = Panic.
Proof.
  intros b k buf pos HB HL HN. destruct (rd_row (rd_dstr b) (PT k) buf pos) as [[r p]|e|] eqn:E; [|left; now exists e|].
  - destruct HN. assert (exists ns ds, row_says r k ns ds) as (ns & ds & HS).
    { cbn [rd_row] in E. apply bind_inv in E as (vs & p1 & _ & E). destruct (row_oarr k) as [[off n]|]; [apply bind_inv in E as (c & p2 & _ & E)|]; apply ret_inv in E as [<- _]; cbn [row_says]; eauto. }
    exists ns, ds, p. apply row_exact; [exact HB|exact HL|]. now exists r.
  - right. destruct b; [easy|]. exfalso. revert E. apply row_no_panic. apply (np_dstr_release buf HB).
Qed.
Print Assumptions c115_refused.
(** The forms exclude one another, and what is stored, and up to where, is determined. *)
Theorem c115_unique : forall b k buf pos ns ds fin ns' ds' fin', bytes_ok buf -> len buf < 2 ^ 64 ->
  row_in b k buf pos ns ds fin -> row_in b k buf pos ns' ds' fin' -> ns = ns' /\ ds = ds' /\ fin = fin'.
Proof.
  intros b k buf pos ns ds fin ns' ds' fin' HB HL H H'. apply row_exact in H as (r & R & S); [|exact HB|exact HL]. apply row_exact in H' as (r' & R' & S'); [|exact HB|exact HL].
  assert (r' = r /\ fin' = fin) as [-> ->] by (split; congruence). destruct r as [k' vs c|]; [|destruct S]. cbn [row_says] in *. destruct S as (_ & <- & <-). destruct S' as (_ & <- & <-). easy.
Qed.
Print Assumptions c115_unique.
(** The two builds accept the same, but for long strings with a stored size below four, which only release builds accept. *)
Theorem c115_builds : forall buf pos d fin, bytes_ok buf -> len buf < 2 ^ 64 ->
  (string_in Debug buf pos d fin -> string_in Release buf pos d fin) /\
  (string_in Release buf pos d fin -> string_in Debug buf pos d fin \/ exists n, n < 4 /\ number buf (pos + 1) 2 = Some n /\ (getN buf pos = Some 0x90 \/ getN buf pos = Some 0x40)).
Proof.
  intros buf pos d fin _ _. assert (forall n l, long_size Debug n = Some l -> long_size Release n = Some l) as HD by (intros n l; unfold long_size; now destruct (4 <=? n)).
  assert (forall n l, long_size Release n = Some l -> 4 <= n -> long_size Debug n = Some l) as HR. { intros n l H H4. unfold long_size in *. now replace (4 <=? n) with true in * by lia. }
  split; intro H.
  - destruct H as [s G HS|n l s G R W M I|n s G R W M HS|n us G R W M NI U]; [now constructor|apply string_isrc with n l; auto|apply string_ascii with n; auto|apply string_ucs2 with n; auto].
  - destruct H as [s G HS|n l s G R W M I|n s G R W M HS|n us G R W M NI U]; [left; now constructor| | |]; (destruct (N.ltb_spec n 4) as [L|L]; [right; exists n; auto|left]).
    + apply string_isrc with n l; auto.
    + apply string_ascii with n; auto.
    + apply string_ucs2 with n; auto.
Qed.
Print Assumptions c115_builds.

(** ** Example: rows of an artist, a color and a history, as the spec has them and as they are read; one byte changed, they are refused *)
Definition c115_artist : list N := [0x60; 0; 0; 0; 7; 0; 0; 0; 3; 10; 7; 65; 66].
Definition c115_color (c : N) : list N := [0; 0; 0; 0; 1; c; 0; 0; 0x90; 8; 0; 0; 0x41; 0; 0xE9; 0].
Definition c115_history (m : N) : list N := [0x80; 2; 0; 0; 1; 0; 0; 0; 0; 0; 0; 0; 3; 0x19; m; 5; 49; 0x40; 6; 0; 0; 50; 51].
Example c115_example :
  row_in Debug KArtist c115_artist 0 [0x60; 0; 7] [DSShort [65; 66]] 0 /\ (exists r, rd_row (rd_dstr Debug) (PT KArtist) c115_artist 0 = Ok (r, 0)) /\
  row_in Debug KColor (c115_color 8) 0 [0; 1; 8; 0] [DSUcs2 [0x41; 0xE9]] 16 /\ (exists r, rd_row (rd_dstr Debug) (PT KColor) (c115_color 8) 0 = Ok (r, 16)) /\
  rd_row (rd_dstr Debug) (PT KColor) (c115_color 9) 0 = Err ENoVariant /\
  row_in Debug KHistory (c115_history 0x1E) 0 [0x280; 0; 1] [DSShort []; DSShort [49]; DSAscii [50; 51]] 23 /\ rd_row (rd_dstr Debug) (PT KHistory) (c115_history 0x1D) 0 = Err EBadMagic.
Proof.
  split; [apply c115_row; [repeat constructor|reflexivity|]; eexists; split; [vm_compute; reflexivity|vm_compute; repeat split]|].
  split; [eexists; vm_compute; reflexivity|].
  split; [apply c115_row; [repeat constructor|reflexivity|]; eexists; split; [vm_compute; reflexivity|vm_compute; repeat split]|].
  split; [eexists; vm_compute; reflexivity|]. split; [vm_compute; reflexivity|].
  split; [apply c115_row; [repeat constructor|reflexivity|]; eexists; split; [vm_compute; reflexivity|vm_compute; repeat split]|]. vm_compute; reflexivity.
Qed.
