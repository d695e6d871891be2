(** * What a player finds in an exported playlist: lossy text, strings of rows, lines of a file *)
From Coq Require Import NArith ZArith List Bool Lia Sorted.
From Coq Require Import ZifyBool ZifyNat ZifyN.
From Verif Require Import Base BaseFacts Utf UtfFacts Str Schema Oa Rows RowFacts Page BitFacts PageFacts PageRw PageSpec Db RowShape Device DeviceFacts DeviceTree Cli CliFacts DumpFacts Listing Fs FsFacts FsExport Main PropMain.
Import ListNotations.
Local Close Scope string_scope.
Open Scope N_scope.

(** ** Lossy text *)

Lemma lossy_nil : lossy [] = []. Proof. reflexivity. Qed.
Ltac lossy_cases :=
  repeat match goal with
  | |- context [if ?c then _ else _] => let E := fresh "E" in destruct c eqn:E
  | |- context [match ?r with [] => _ | _ => _ end] => is_var r; destruct r
  end.
Lemma lossy_cons b0 r0 : exists c n, lossy (b0 :: r0) = c :: lossy (skipn n r0) /\ is_scalar c = true /\ (if b0 <? 128 then c = b0 /\ n = O else 128 <= c).
Proof.
  assert (forall b r, exists n, replacement :: lossy r = replacement :: lossy (skipn n (b :: r))) as HS by (intros; now exists 1%nat).
  cbn [lossy]. destruct (b0 <? 128) eqn:E0; [exists b0, O; split; [easy|]; split; [unfold is_scalar; lia|easy]|].
  assert (is_scalar replacement = true /\ 128 <= replacement) as HR by (split; [reflexivity|vm_compute; discriminate]).
  unfold in_range. destruct ((0xC2 <=? b0) && (b0 <=? 0xDF)) eqn:E2.
  { destruct r0 as [|b1 r1]; [exists replacement, O; now split|]. destruct ((0x80 <=? b1) && (b1 <=? 0xBF)) eqn:F1; [|now exists replacement, O].
    exists ((b0 - 192) * 64 + (b1 - 128)), 1%nat. split; [easy|]. unfold is_scalar. lia. }
  destruct ((0xE0 <=? b0) && (b0 <=? 0xEF)) eqn:E3.
  { destruct r0 as [|b1 r1]; [exists replacement, O; now split|]. destruct (((if b0 =? 0xE0 then 0xA0 else 0x80) <=? b1) && (b1 <=? (if b0 =? 0xED then 0x9F else 0xBF))) eqn:F1; [|now exists replacement, O].
    destruct r1 as [|b2 r2]; [exists replacement, 1%nat; now split|]. destruct ((0x80 <=? b2) && (b2 <=? 0xBF)) eqn:F2; [|now exists replacement, 1%nat].
    exists ((b0 - 224) * 4096 + (b1 - 128) * 64 + (b2 - 128)), 2%nat. split; [easy|]. unfold is_scalar. destruct (b0 =? 0xE0) eqn:G1; destruct (b0 =? 0xED) eqn:G2; lia. }
  destruct ((0xF0 <=? b0) && (b0 <=? 0xF4)) eqn:E4; [|now exists replacement, O].
  destruct r0 as [|b1 r1]; [exists replacement, O; now split|]. destruct (((if b0 =? 0xF0 then 0x90 else 0x80) <=? b1) && (b1 <=? (if b0 =? 0xF4 then 0x8F else 0xBF))) eqn:F1; [|now exists replacement, O].
  destruct r1 as [|b2 r2]; [exists replacement, 1%nat; now split|]. destruct ((0x80 <=? b2) && (b2 <=? 0xBF)) eqn:F2; [|now exists replacement, 1%nat].
  destruct r2 as [|b3 r3]; [exists replacement, 2%nat; now split|]. destruct ((0x80 <=? b3) && (b3 <=? 0xBF)) eqn:F3; [|now exists replacement, 2%nat].
  exists ((b0 - 240) * 262144 + (b1 - 128) * 4096 + (b2 - 128) * 64 + (b3 - 128)), 3%nat. split; [easy|]. unfold is_scalar. destruct (b0 =? 0xF0) eqn:G1; destruct (b0 =? 0xF4) eqn:G2; lia.
Qed.
Lemma short_ind (P : list N -> Prop) : P [] -> (forall b r, (forall n, P (skipn n r)) -> P (b :: r)) -> forall l, P l.
Proof.
  intros H0 HS l. assert (forall k l, (List.length l <= k)%nat -> P l) as H; [|now apply (H (List.length l))]. clear l.
  induction k as [|k IH]; intros [|b r] HL; cbn [List.length] in HL; [easy|lia|easy|]. apply HS. intro n. apply IH. rewrite skipn_length. lia.
Qed.
Lemma lossy_ok bs : ustr_ok (lossy bs).
Proof. induction bs as [|b r IH] using short_ind; [constructor|]. destruct (lossy_cons b r) as (c & n & -> & S & _). constructor; [easy|apply IH]. Qed.
(** ASCII characters of the result are bytes of the input, in order. *)
Lemma lossy_ascii bs : is_ascii (lossy bs) = true -> lossy bs = bs.
Proof.
  induction bs as [|b r IH] using short_ind; [easy|]. destruct (lossy_cons b r) as (c & n & E & _ & H). rewrite E. cbn [is_ascii forallb]. intro A. apply andb_prop in A as [A1 A2].
  destruct (b <? 128) eqn:EB; [|lia]. destruct H as [-> ->]. cbn [skipn] in *. f_equal. now apply (IH O).
Qed.
Lemma lossy_in bs x : x < 128 -> In x (lossy bs) -> In x bs.
Proof.
  intro HX. induction bs as [|b r IH] using short_ind; [easy|]. destruct (lossy_cons b r) as (c & n & -> & _ & H). intros [<-|I].
  - destruct (b <? 128) eqn:EB; [|lia]. destruct H as [-> _]. now left.
  - right. apply IH in I. rewrite <- (firstn_skipn n r). apply in_or_app. now right.
Qed.
Lemma lossy_enc1 c r : is_scalar c = true -> lossy (utf8_enc1 c ++ r) = c :: lossy r.
Proof.
  unfold is_scalar, utf8_enc1. intro HC. destruct (c <? 0x80) eqn:C1; [cbn [List.app lossy]; now rewrite C1|].
  destruct (c <? 0x800) eqn:C2.
  { cbn [List.app lossy]. pose proof (N.div_mod c 64 ltac:(easy)). pose proof (N.mod_lt c 64 ltac:(easy)).
    replace (0xC0 + c / 64 <? 0x80) with false by lia. unfold in_range. replace ((0xC2 <=? 0xC0 + c / 64) && (0xC0 + c / 64 <=? 0xDF)) with true by lia.
    replace ((0x80 <=? 0x80 + c mod 64) && (0x80 + c mod 64 <=? 0xBF)) with true by lia. f_equal. lia. }
  destruct (c <? 0x10000) eqn:C3.
  { cbn [List.app lossy]. pose proof (N.div_mod c 4096 ltac:(easy)). pose proof (N.mod_lt (c / 64) 64 ltac:(easy)). pose proof (N.div_mod c 64 ltac:(easy)). pose proof (N.mod_lt c 64 ltac:(easy)).
    pose proof (N.div_mod (c / 64) 64 ltac:(easy)) as D. rewrite N.div_div in D by easy. change (64 * 64) with 4096 in D.
    set (q := c / 4096) in *. set (m := (c / 64) mod 64) in *. set (k := c mod 64) in *. clearbody q m k. set (h := c / 64) in *. clearbody h.
    replace (0xE0 + q <? 0x80) with false by lia. unfold in_range. replace ((0xC2 <=? 0xE0 + q) && (0xE0 + q <=? 0xDF)) with false by lia. replace ((0xE0 <=? 0xE0 + q) && (0xE0 + q <=? 0xEF)) with true by lia.
    replace (((if 0xE0 + q =? 0xE0 then 0xA0 else 0x80) <=? 0x80 + m) && (0x80 + m <=? (if 0xE0 + q =? 0xED then 0x9F else 0xBF))) with true.
    - replace ((0x80 <=? 0x80 + k) && (0x80 + k <=? 0xBF)) with true by lia. f_equal. lia.
    - destruct (0xE0 + q =? 0xE0) eqn:G1; destruct (0xE0 + q =? 0xED) eqn:G2; lia. }
  cbn [List.app lossy]. pose proof (N.mod_lt (c / 64) 64 ltac:(easy)). pose proof (N.div_mod c 64 ltac:(easy)). pose proof (N.mod_lt c 64 ltac:(easy)).
  pose proof (N.div_mod (c / 64) 64 ltac:(easy)) as D. rewrite N.div_div in D by easy. change (64 * 64) with 4096 in D.
  pose proof (N.div_mod (c / 4096) 64 ltac:(easy)) as D2. rewrite N.div_div in D2 by easy. change (4096 * 64) with 262144 in D2. pose proof (N.mod_lt (c / 4096) 64 ltac:(easy)).
  set (q := c / 262144) in *. set (m := (c / 4096) mod 64) in *. set (k := (c / 64) mod 64) in *. set (j := c mod 64) in *. clearbody q m k j. set (h := c / 64) in *. set (g := c / 4096) in *. clearbody h g.
  replace (0xF0 + q <? 0x80) with false by lia. unfold in_range. replace ((0xC2 <=? 0xF0 + q) && (0xF0 + q <=? 0xDF)) with false by lia. replace ((0xE0 <=? 0xF0 + q) && (0xF0 + q <=? 0xEF)) with false by lia.
  replace ((0xF0 <=? 0xF0 + q) && (0xF0 + q <=? 0xF4)) with true by lia.
  replace (((if 0xF0 + q =? 0xF0 then 0x90 else 0x80) <=? 0x80 + m) && (0x80 + m <=? (if 0xF0 + q =? 0xF4 then 0x8F else 0xBF))) with true.
  - replace ((0x80 <=? 0x80 + k) && (0x80 + k <=? 0xBF)) with true by lia. replace ((0x80 <=? 0x80 + j) && (0x80 + j <=? 0xBF)) with true by lia. f_equal. lia.
  - destruct (0xF0 + q =? 0xF0) eqn:G1; destruct (0xF0 + q =? 0xF4) eqn:G2; lia.
Qed.
Lemma lossy_enc s r : ustr_ok s -> lossy (utf8_enc s ++ r) = s ++ lossy r.
Proof. induction 1 as [|c s HC _ IH]; [easy|]. cbn [utf8_enc flat_map]. rewrite <- app_assoc, lossy_enc1 by easy. cbn [List.app]. f_equal. exact IH. Qed.
(** A byte below 128 ends whatever is before it. *)
Lemma lossy_app x r : x < 128 -> forall l, lossy (l ++ x :: r) = lossy l ++ x :: lossy r.
Proof.
  intros HX. assert (lossy (x :: r) = x :: lossy r) as EX by (cbn [lossy]; now replace (x <? 0x80) with true by lia).
  assert (forall lo hi, 0x80 <= lo -> in_range lo hi x = false) as HR by (intros; unfold in_range; lia).
  induction l as [|b0 r0 IH] using short_ind; [easy|]. pose proof (IH O) as I0. cbn [skipn] in I0.
  cbn [List.app lossy]. destruct (b0 <? 128) eqn:E0; [cbn [List.app]; now rewrite I0|].
  destruct (in_range 0xC2 0xDF b0) eqn:E2.
  { destruct r0 as [|b1 r1]; [cbn [List.app]; rewrite HR by lia; now rewrite EX|]. cbn [List.app]. destruct (in_range 0x80 0xBF b1); [|exact (f_equal (cons replacement) I0)]. pose proof (IH 1%nat) as I1. cbn [skipn] in I1. now rewrite I1. }
  destruct (in_range 0xE0 0xEF b0) eqn:E3.
  { destruct r0 as [|b1 r1]; [cbn [List.app]; rewrite HR by (destruct (b0 =? 0xE0); lia); now rewrite EX|]. cbn [List.app]. destruct (in_range _ _ b1); [|exact (f_equal (cons replacement) I0)]. pose proof (IH 1%nat) as I1. cbn [skipn] in I1.
    destruct r1 as [|b2 r2]; [cbn [List.app]; rewrite HR by lia; now rewrite EX|]. cbn [List.app]. destruct (in_range 0x80 0xBF b2); [|exact (f_equal (cons replacement) I1)]. pose proof (IH 2%nat) as I2. cbn [skipn] in I2. now rewrite I2. }
  destruct (in_range 0xF0 0xF4 b0) eqn:E4; [|exact (f_equal (cons replacement) I0)].
  destruct r0 as [|b1 r1]; [cbn [List.app]; rewrite HR by (destruct (b0 =? 0xF0); lia); now rewrite EX|]. cbn [List.app]. destruct (in_range _ _ b1); [|exact (f_equal (cons replacement) I0)]. pose proof (IH 1%nat) as I1. cbn [skipn] in I1.
  destruct r1 as [|b2 r2]; [cbn [List.app]; rewrite HR by lia; now rewrite EX|]. cbn [List.app]. destruct (in_range 0x80 0xBF b2); [|exact (f_equal (cons replacement) I1)]. pose proof (IH 2%nat) as I2. cbn [skipn] in I2.
  destruct r2 as [|b3 r3]; [cbn [List.app]; rewrite HR by lia; now rewrite EX|]. cbn [List.app]. destruct (in_range 0x80 0xBF b3); [|exact (f_equal (cons replacement) I2)]. pose proof (IH 3%nat) as I3. cbn [skipn] in I3. now rewrite I3.
Qed.

(** Text that is shown as it is. *)
Definition utf8 (p : list N) : Prop := exists s, ustr_ok s /\ p = utf8_enc s.
Lemma display_same p : display p = p <-> utf8 p.
Proof.
  split; [intro E; exists (lossy p); split; [apply lossy_ok|now symmetry]|]. intros (s & HS & ->). unfold display. rewrite <- (app_nil_r (utf8_enc s)) at 1. rewrite lossy_enc by easy. now rewrite lossy_nil, app_nil_r.
Qed.
Lemma utf8_app a b : utf8_enc (a ++ b) = utf8_enc a ++ utf8_enc b.
Proof. apply flat_map_app. Qed.
Lemma display_app x r l : x < 128 -> display (l ++ x :: r) = display l ++ x :: display r.
Proof. intro HX. unfold display. rewrite lossy_app by easy. rewrite utf8_app. cbn [utf8_enc flat_map]. unfold utf8_enc1. now replace (x <? 0x80) with true by lia. Qed.
Lemma in_utf8 x s : x < 128 -> In x (utf8_enc s) -> In x s.
Proof.
  intros HX I. apply in_flat_map in I as (c & I & H). unfold utf8_enc1 in H. destruct (c <? 0x80) eqn:C1; [now destruct H as [->|[]]|].
  destruct (c <? 0x800); [|destruct (c <? 0x10000)]; cbn [In] in H; exfalso; repeat (destruct H as [H|H]; [lia|]); easy.
Qed.
Lemma display_in x p : x < 128 -> In x (display p) -> In x p.
Proof. intros HX I. apply in_utf8 in I; [|easy]. now apply lossy_in in I. Qed.
Lemma display_ascii p : is_ascii (display p) = true -> display p = p.
Proof. intro A. unfold display in *. pose proof (utf8_ascii_id _ A) as E. rewrite E in A |- *. now apply lossy_ascii. Qed.
Lemma display_named c : named c -> named (display c).
Proof.
  intros ((H1 & H2 & H3) & H4). split; [|intro I; apply H4; now apply display_in in I]. repeat split; intro E.
  - apply H1. rewrite <- E. symmetry. apply display_ascii. now rewrite E.
  - apply H2. rewrite <- E. symmetry. apply display_ascii. now rewrite E.
  - apply H3. rewrite <- E. symmetry. apply display_ascii. now rewrite E.
Qed.

(** ** Paths of tracks: the strings of rows that are read from a file are texts *)
Lemma utf8_dec_ok bs : forall s, utf8_dec bs = Some s -> ustr_ok s.
Proof.
  assert (forall o c s, is_scalar c = true -> (forall t, o = Some t -> ustr_ok t) -> option_map (cons c) o = Some s -> ustr_ok s) as HM
    by (intros [t|] c s HC HO; cbn [option_map]; [intros [= <-]; constructor; [easy|now apply HO]|easy]).
  induction bs as [|b0 r0 IH] using short_ind; intros s; [cbn; intros [= <-]; constructor|]. cbn [utf8_dec].
  pose proof (IH O) as I0. cbn [skipn] in I0. destruct (b0 <? 128) eqn:E0; [apply HM; [unfold is_scalar; lia|easy]|].
  destruct r0 as [|b1 r1]; [easy|]. pose proof (IH 1%nat) as I1. cbn [skipn] in I1. unfold in_range.
  destruct ((0xC2 <=? b0) && (b0 <=? 0xDF)) eqn:E2; [destruct ((0x80 <=? b1) && (b1 <=? 0xBF)) eqn:F1; [|easy]; apply HM; [unfold is_scalar; lia|easy]|].
  destruct r1 as [|b2 r2]; [easy|]. pose proof (IH 2%nat) as I2. cbn [skipn] in I2.
  destruct ((0xE0 <=? b0) && (b0 <=? 0xEF)) eqn:E3.
  { destruct (((if b0 =? 0xE0 then 0xA0 else 0x80) <=? b1) && (b1 <=? (if b0 =? 0xED then 0x9F else 0xBF)) && ((0x80 <=? b2) && (b2 <=? 0xBF))) eqn:F1; [|easy]. apply HM; [|easy].
    unfold is_scalar. destruct (b0 =? 0xE0) eqn:G1; destruct (b0 =? 0xED) eqn:G2; lia. }
  destruct r2 as [|b3 r3]; [easy|]. pose proof (IH 3%nat) as I3. cbn [skipn] in I3.
  destruct ((0xF0 <=? b0) && (b0 <=? 0xF4)) eqn:E4; [|easy].
  destruct (((if b0 =? 0xF0 then 0x90 else 0x80) <=? b1) && (b1 <=? (if b0 =? 0xF4 then 0x8F else 0xBF)) && ((0x80 <=? b2) && (b2 <=? 0xBF)) && ((0x80 <=? b3) && (b3 <=? 0xBF))) eqn:F1; [|easy]. apply HM; [|easy].
  unfold is_scalar. destruct (b0 =? 0xF0) eqn:G1; destruct (b0 =? 0xF4) eqn:G2; lia.
Qed.
Lemma utf16_dec_ok us : Forall is_u16 us -> forall s, utf16_dec us = Some s -> ustr_ok s.
Proof.
  assert (forall o c s, is_scalar c = true -> (forall t, o = Some t -> ustr_ok t) -> option_map (cons c) o = Some s -> ustr_ok s) as HM
    by (intros [t|] c s HC HO; cbn [option_map]; [intros [= <-]; constructor; [easy|now apply HO]|easy]).
  induction us as [|u r IH] using short_ind; intros HU s; [cbn; intros [= <-]; constructor|]. apply Forall_cons_iff in HU as [HU HR]. unfold is_u16 in HU. cbn [utf16_dec]. unfold in_range.
  destruct ((0xD800 <=? u) && (u <=? 0xDBFF)) eqn:E1.
  - destruct r as [|v r]; [easy|]. destruct ((0xDC00 <=? v) && (v <=? 0xDFFF)) eqn:E2; [|easy]. apply HM; [unfold is_scalar; lia|]. apply Forall_cons_iff in HR as [_ HR]. exact (IH 1%nat HR).
  - destruct ((0xDC00 <=? u) && (u <=? 0xDFFF)) eqn:E2; [easy|]. apply HM; [unfold is_scalar; lia|]. exact (IH O HR).
Qed.
Definition units (d : dstr) : Prop := match d with DSUcs2 us => Forall is_u16 us | _ => True end.
Lemma into_string_ok d s : units d -> dstr_into_string d = inl s -> ustr_ok s.
Proof.
  destruct d as [v|v|v|us]; cbn [dstr_into_string units]; intros H E; try (destruct (utf8_dec v) as [t|] eqn:D; [|easy]; injection E as <-; now apply utf8_dec_ok in D).
  destruct (utf16_dec us) as [t|] eqn:D; [|easy]. injection E as <-. now apply utf16_dec_ok in D.
Qed.
Lemma rd_dstr_units b buf pos d q : bytes_ok buf -> rd_dstr b buf pos = Ok (d, q) -> units d.
Proof.
  intros HB H. unfold rd_dstr, orelse in H. destruct (rd_dstr_short b buf pos) as [[d0 p0]| |] eqn:RS; [| |easy].
  { injection H as -> ->. unfold rd_dstr_short in RS. repeat (apply bind_inv in RS as (? & ? & _ & RS)). apply ret_inv in RS as [<- _]. exact I. }
  clear RS. unfold rd_dstr_long in H. repeat (apply bind_inv in H as (? & ? & _ & H)). unfold rd_longbody, orelse in H.
  match type of H with match ?t with _ => _ end = _ => destruct t as [[d0 p0]| |] eqn:E1; [| |easy] end.
  { injection H as -> ->. repeat (apply bind_inv in E1 as (? & ? & _ & E1)). apply ret_inv in E1 as [<- _]. exact I. }
  clear E1. match type of H with match ?t with _ => _ end = _ => destruct t as [[d0 p0]| |] eqn:E1; [| |easy] end.
  { injection H as -> ->. repeat (apply bind_inv in E1 as (? & ? & _ & E1)). apply ret_inv in E1 as [<- _]. exact I. }
  clear E1. apply bind_inv in H as (? & ? & _ & H). apply bind_inv in H as (? & ? & _ & H). apply bind_inv in H as (us & ? & R & H). apply ret_inv in H as [<- _]. cbn [units]. revert R.
  match goal with |- rd_count ?n _ _ ?p = Ok (_, ?q) -> _ => generalize n; generalize p; generalize q end. intros q0 p n. revert p q0 us. induction n as [|n IH]; intros p q0 us R; cbn [rd_count] in R; [apply ret_inv in R as [<- _]; constructor|].
  apply bind_inv in R as (u & p1 & RU & R). apply bind_inv in R as (us' & p2 & RR & R). apply ret_inv in R as [<- _]. constructor; [|now apply IH in RR].
  apply rd_le_inv in RU as (HL & _); [|easy|easy]. exact HL.
Qed.
Definition val_units (v : fval) : Prop := match v with VStr d => units d | _ => True end.
Definition row_units (r : row) : Prop :=
  match r with RRow _ vs c => Forall val_units vs /\ match c with Some c => Forall units (oa_items c) | None => True end | RUnknown => True end.
Lemma rd_fields_units b buf fs : bytes_ok buf -> forall pos vs p, rd_fields (rd_dstr b) fs buf pos = Ok (vs, p) -> Forall val_units vs.
Proof.
  intro HB. induction fs as [|f fs IH]; intros pos vs p; cbn [rd_fields]; intro H; [apply ret_inv in H as [<- _]; constructor|].
  apply bind_inv in H as (v & p1 & HV & H). apply bind_inv in H as (vs' & p2 & HR & H). apply ret_inv in H as [<- _]. constructor; [|now apply IH in HR].
  destruct f; cbn [rd_field] in HV; repeat (apply bind_inv in HV as (? & ? & ? & HV)); apply ret_inv in HV as [<- _]; try exact I; [now destruct (mem _ _)|]. cbn [val_units]. eapply rd_dstr_units; eassumption.
Qed.
Lemma rd_items_all rs (Q : dstr -> Prop) buf : (forall pos d p, rs buf pos = Ok (d, p) -> Q d) -> forall os base cur ds, rd_items rs base cur os buf = Ok ds -> Forall Q ds.
Proof.
  intro HQ. induction os as [|o os IH]; intros base cur ds H; cbn [rd_items] in H; [injection H as <-; constructor|].
  destruct (rs buf (cur + o)) as [[d p]|e|] eqn:E; [|now destruct (rd_items _ _ _ _ _)|easy]. destruct (rd_items rs base base os buf) as [ds'|e|] eqn:E2; try easy. injection H as <-.
  constructor; [now apply HQ in E|now apply IH in E2].
Qed.
Lemma rd_row_units b pt buf pos r p : bytes_ok buf -> rd_row (rd_dstr b) pt buf pos = Ok (r, p) -> row_units r.
Proof.
  intro HB. destruct pt as [k|c]; cbn [rd_row]; intro H; [|apply ret_inv in H as [<- _]; exact I].
  apply bind_inv in H as (vs & p1 & HV & H). apply rd_fields_units in HV; [|easy]. destruct (row_oarr k) as [[off n]|] eqn:EO; [|apply ret_inv in H as [<- _]; now split].
  apply bind_inv in H as (c & p2 & HC & H). apply ret_inv in H as [<- _]. cbn [row_units]. split; [exact HV|]. unfold rd_oarr in HC. destruct (rd_offs (row_osize vs) n buf p1) as [[o q]| |] eqn:RO; try easy.
  destruct (calculate_base p1 off) as [base| |]; try easy. cbn [res_bind] in HC. destruct (rd_items (rd_dstr b) base base (of_list o) buf) as [items| |] eqn:RI; try easy. cbn [res_bind] in HC.
  assert (c = mk_oarr (Some o) items) as -> by congruence. cbn [oa_items]. refine (rd_items_all _ _ _ _ _ _ _ _ RI). intros q0 d p0. now apply rd_dstr_units.
Qed.
Lemma rd_page_units b ps db buf pos p q : bytes_ok buf -> rd_page b (rd_dstr b) ps db buf pos = Ok (p, q) -> Forall row_units (page_rows p).
Proof.
  unfold rd_page. intros HB H. apply bind_inv in H as (h & p1 & _ & H). destruct (is_index_page (ph_flags h)).
  - apply bind_inv in H as (c & p2 & _ & H). apply ret_inv in H as [<- _]. constructor.
  - apply bind_inv in H as (c & p2 & R & H). apply ret_inv in H as [<- _]. unfold page_rows. cbn [pg_content pg_header]. unfold rd_dcontent in R.
    repeat (apply bind_inv in R as (? & ? & ? & R)). apply ret_inv in R as [<- _]. cbn [dc_rows].
    match goal with G : match rd_rows_at _ _ ?base ?os _ _ with _ => _ end = _ |- _ => destruct (rd_rows_at (rd_dstr b) (ph_type h) base os [] buf) as [m| |] eqn:E; try easy; injection G as <- <- end.
    apply rd_rows_at_inv in E as (S & G & _). rewrite Forall_forall. intros r HI. apply in_map_iff in HI as ([k r'] & E & HI). cbn [snd] in E. subst r'.
    apply map_get_in in HI; [|apply S; constructor]. apply G in HI as [(_ & y & R)|[_ R]]; [|easy]. now apply rd_row_units in R.
Qed.
Lemma table_units b k h io kd rows : bytes_ok io -> table_in b k h io kd (DOk rows) -> Forall row_units rows.
Proof.
  intros HB H. inversion H as [|l1 t l2 ps r x _ _ _ HP HR]; subst. clear H. assert (Forall (fun p => Forall row_units (page_rows p)) ps) as HU.
  { clear HR. induction HP; try (now constructor); (constructor; [now apply (rd_page_units b (dh_page_size h) k io) in H1|easy]). }
  clear HP. remember (DOk rows) as x. revert rows Heqx. induction HR; intros rows [=]; subst; [constructor|]. apply Forall_cons_iff in HU as [H1 H2]. apply Forall_app. split; [easy|now apply IHHR].
Qed.
Lemma tracks_text b k h io rt raw tr : bytes_ok io -> table_in b k h io KTrack (DOk rt) -> Forall2 (fun r x => track_of_row r = Some x) rt raw ->
  Forall2 (fun x y : N * _ => fst x = fst y /\ dstr_into_string (snd x) = inl (snd y)) raw tr -> Forall (fun y => ustr_ok (snd y)) tr.
Proof.
  intros HB HT F1. apply table_units in HT; [|easy]. revert tr. induction F1 as [|r x rt raw H1 F1 IH]; intros tr F2; inversion F2 as [|? y ? tr' [_ H2] F2']; subst; [constructor|].
  apply Forall_cons_iff in HT as [HU HT]. constructor; [|now apply IH]. apply (into_string_ok (snd x)); [|easy]. unfold track_of_row in H1. destruct r as [[] vs [c|]|]; try easy. destruct HU as [_ HU].
  destruct (nth_error vs 20) as [[]|]; try easy. destruct (nth_error (oa_items c) 20) as [s|] eqn:E; [|easy]. injection H1 as <-. rewrite Forall_forall in HU. apply HU. now apply nth_error_In in E.
Qed.
(** The names of playlists and folders are texts. *)
Lemma nodes_text b k h io rn ns : bytes_ok io -> table_in b k h io KPlaylistTreeNode (DOk rn) -> Forall2 (fun r x => node_of_row r = Some x) rn ns ->
  Forall (fun n => forall s, decodes n s -> ustr_ok s) ns.
Proof.
  intros HB HT HF. apply table_units in HT; [|easy]. induction HF as [|r n rn ns H HF IH]; [constructor|]. apply Forall_cons_iff in HT as [HU HT]. constructor; [|now apply IH].
  intros s HS. apply (into_string_ok (nd_name n)); [|exact HS]. unfold node_of_row in H. destruct r as [[] vs c|]; try easy.
  destruct vs as [|[] vs]; try easy. do 5 (destruct vs as [|[] vs]; try easy). destruct vs; [|easy]. injection H as <-. destruct HU as [HU _]. cbn [nd_name]. do 5 (apply Forall_cons_iff in HU as [_ HU]). now apply Forall_cons_iff in HU as [HU _].
Qed.
