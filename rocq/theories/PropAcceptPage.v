(** * Property C116: exactly which pages of databases are accepted, and where they end *)
From Coq Require Import NArith ZArith List Bool Lia.
From Coq Require Import ZifyBool ZifyNat ZifyN.
From Verif Require Import Base BaseFacts Str StrFacts Schema SchemaFacts Oa OaFacts Rows RowFacts Page PageFacts PageRw AllocFacts Layout LayoutDb AnlzPanic Robust AcceptStr AcceptPage.
Import ListNotations.
Open Scope N_scope.

(** A page is read, up to [fin], if and only if it is stored as an index page or as a data page from [pos] to [fin]. *)
Theorem c116_page : forall b ps db buf pos fin, bytes_ok buf -> len buf < 2 ^ 64 -> 40 <= ps ->
  ((exists p, rd_page b (rd_dstr b) ps db buf pos = Ok (p, fin)) <-> page_in b ps db buf pos fin).
Proof. exact page_exact. Qed.
Print Assumptions c116_page.
(** Anything else is refused: with an error, or in debug builds with a panic. *)
Theorem c116_refused : forall b ps db buf pos, bytes_ok buf -> len buf < 2 ^ 64 -> 40 <= ps -> ~ (exists fin, page_in b ps db buf pos fin) ->
  (exists e, rd_page b (rd_dstr b) ps db buf pos = Err e) \/ b = Debug /\ rd_page b (rd_dstr b) ps db buf pos = Panic.
Proof.
  intros b ps db buf pos HB HL HP HN. destruct (rd_page b (rd_dstr b) ps db buf pos) as [[p q]|e|] eqn:E; [|left; now exists e|].
  - destruct HN. exists q. apply page_exact; [exact HB|exact HL|exact HP|]. now exists p.
  - right. destruct b; [easy|]. exfalso. revert E. apply (np_page buf Release (rd_dstr Release) ps db (np_dstr_release _ HB) (or_introl eq_refl) pos).
Qed.
Print Assumptions c116_refused.
(** One row that is not stored as its type asks makes the whole page unreadable. *)
Theorem c116_one_row : forall b ps db buf pos f t c k s o, bytes_ok buf -> len buf < 2 ^ 64 -> 40 <= ps ->
  getN buf (pos + 27) = Some f -> N.testbit f 6 = false -> number buf (pos + 8) 4 = Some t -> In (t, k) (page_types db) -> number buf (pos + 24) 3 = Some c ->
  s / 16 < (c mod 8192 + 15) / 16 -> slot_present buf (pos + ps) s -> slot_offset buf (pos + ps) s = Some o -> ~ (exists ns ds q, row_in b k buf (pos + 40 + o) ns ds q) ->
  forall p q, rd_page b (rd_dstr b) ps db buf pos <> Ok (p, q).
Proof.
  intros b ps db buf pos f t c k s o HB HL HP HF HT HTy HK HC HS HSP HSO HN p q H. assert (page_in b ps db buf pos q) as (_ & f' & F & HD) by (apply page_exact; [exact HB|exact HL|exact HP|]; now exists p).
  assert (f' = f) as -> by congruence. rewrite HT in HD. destruct HD as (t' & c' & g & os & T & C & _ & -> & -> & _ & _ & HO & _ & HR). assert (t' = t) as -> by congruence. assert (c' = c) as -> by congruence.
  apply HN, (HR o k); [|exact HK]. apply HO. now exists s.
Qed.
Print Assumptions c116_one_row.
(** A wrong number of present rows makes the page unreadable: offsets that occur twice count once. *)
Theorem c116_count : forall b ps db buf pos f c os, bytes_ok buf -> len buf < 2 ^ 64 -> 40 <= ps ->
  getN buf (pos + 27) = Some f -> N.testbit f 6 = false -> number buf (pos + 24) 3 = Some c -> NoDup os -> (forall o, In o os <-> present_at buf (pos + ps) ((c mod 8192 + 15) / 16) o) ->
  len os <> c / 8192 -> forall p q, rd_page b (rd_dstr b) ps db buf pos <> Ok (p, q).
Proof.
  intros b ps db buf pos f c os HB HL HP HF HT HC ND HO HN p q H. assert (page_in b ps db buf pos q) as (_ & f' & F & HD) by (apply page_exact; [exact HB|exact HL|exact HP|]; now exists p).
  assert (f' = f) as -> by congruence. rewrite HT in HD. destruct HD as (t' & c' & g & os' & T & C & _ & -> & -> & _ & ND' & HO' & LO & _). assert (c' = c) as -> by congruence.
  apply HN. rewrite <- LO. apply nodup_len; [exact ND|exact ND'|]. intro o. rewrite HO, HO'. reflexivity.
Qed.
Print Assumptions c116_count.

(** ** Example: a data page with two history entries in 120 bytes, as the spec has it and as it is read; with another count of rows, and as the page of a known type with a string, it is refused;
    an index page with one entry *)
Definition c116_data (t valid : N) : list N :=
  [0; 0; 0; 0; 1; 0; 0; 0; t; 0; 0; 0; 0xff; 0xff; 0xff; 3; 1; 0; 0; 0; 0; 0; 0; 0; 2; 32 * valid; 0; 0x24; 0; 0; 24; 0] ++ repeat 0 8 ++
  [1; 0; 0; 0; 2; 0; 0; 0; 3; 0; 0; 0; 4; 0; 0; 0; 5; 0; 0; 0; 6; 0; 0; 0] ++ repeat 0 20 ++ repeat 0 28 ++ [12; 0; 0; 0; 3; 0; 0; 0].
Definition c116_index : list N :=
  [0; 0; 0; 0; 1; 0; 0; 0; 0; 0; 0; 0; 0xff; 0xff; 0xff; 3; 1; 0; 0; 0; 0; 0; 0; 0; 0; 0; 0; 0x64; 0; 0; 0; 0] ++
  [0xff; 0x1f; 0xff; 0x1f; 0xec; 3; 0; 0; 1; 0; 0; 0; 2; 0; 0; 0; 0xff; 0xff; 0xff; 3; 0; 0; 0; 0; 1; 0; 0xff; 0x1f; 8; 0; 0; 0].
Example c116_example :
  page_in Debug 120 DbPlain (c116_data 12 2) 0 120 /\ page_in Debug 120 DbPlain c116_index 0 64 /\
  rd_page Debug (rd_dstr Debug) 120 DbPlain (c116_data 12 1) 0 = Err EAssertFail /\
  (exists e, rd_page Release (rd_dstr Release) 120 DbPlain (c116_data 16 2) 0 = Err e) /\ (exists p, rd_page Debug (rd_dstr Debug) 120 DbPlain (c116_data 99 2) 0 = Ok (p, 120)).
Proof.
  split; [apply c116_page; [apply Forall_forall; intros x HX; cbn in HX; unfold is_u8; repeat (destruct HX as [<-|HX]; [reflexivity|]); destruct HX|reflexivity|discriminate|]; eexists; vm_compute; reflexivity|].
  split; [apply c116_page; [repeat constructor|reflexivity|discriminate|]; eexists; vm_compute; reflexivity|].
  split; [vm_compute; reflexivity|]. split; [eexists; vm_compute; reflexivity|eexists; vm_compute; reflexivity].
Qed.
