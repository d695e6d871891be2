(** * Property C117: exactly which database files open, which pages and tables of them can be read, and what the rows say *)
From Coq Require Import NArith ZArith List Bool Lia Sorted.
From Coq Require Import ZifyBool ZifyNat ZifyN.
From Verif Require Import Base BaseFacts Str StrFacts Schema SchemaFacts Oa OaFacts Rows RowFacts Page PageFacts PageRw AllocFacts Db DbFacts DbFlush DbFresh Layout LayoutDb Insert AcceptStr AcceptPage AcceptDb RowShape PropLayout.
Import ListNotations.
Open Scope N_scope.

(** A file opens if and only if its header and the list of tables are there. *)
Theorem c117_open : forall io k, (exists d, db_open io k = DOk d) <-> opens io.
Proof. exact open_exact. Qed.
Print Assumptions c117_open.
Lemma size_is b io db d ps : bytes_ok io -> only_read b io db d -> number io 4 4 = Some ps -> ps = dh_page_size (db_header d) /\ fresh b io db d.
Proof. intros HB HO HN. apply only_read_fresh in HO; [|exact HB]. split; [|exact HO]. apply fresh_layout in HO as (_ & H & _). congruence. Qed.
(** However much was read before: a page can be loaded if and only if one is stored at its place. *)
Theorem c117_page : forall b io db d ps i, bytes_ok io -> len io < 2 ^ 64 -> only_read b io db d -> number io 4 4 = Some ps -> 40 <= ps -> 1 <= i ->
  ((exists p, snd (load_page b d i) = DOk p) <-> page_at b db io ps i).
Proof.
  intros b io db d ps i HB HL HO HN HP Hi. destruct (size_is b io db d ps HB HO HN) as [-> F]. rewrite <- (fresh_page_at b io db d i HB HL F HP).
  destruct (i <=? len (db_pages d)) eqn:EI.
  - rewrite load_page_present by lia. unfold page_of. destruct (getN_lt_Some (db_pages d) (i - 1)) as [[q|] E]; [lia| |]; rewrite E.
    + split; intros [p H]; exists q; [split; [exact Hi|now left]|reflexivity].
    + split; [intros [p H]; exists p; split; [exact Hi|now right]|]. intros [p [_ [H|[_ H]]]]; [discriminate|now exists p].
  - rewrite load_page_absent by lia. split; intros [p H]; [discriminate|]. apply page_of_range in H. lia.
Qed.
Print Assumptions c117_page.
(** The walk over the pages of table [t] succeeds, with the pages [is], if and only if these are the pages of a growing chain in the file. *)
Theorem c117_table : forall b io db d ps t is, bytes_ok io -> len io < 2 ^ 64 -> only_read b io db d -> number io 4 4 = Some ps -> 40 <= ps ->
  ((exists it l, iter_pages_for_table d t = DOk it /\ snd (collect b d it) = Some (DOk l) /\ map fst l = is) <->
   exists n first last, number io 8 4 = Some n /\ t < n /\ number io (36 + 16 * t) 4 = Some first /\ number io (40 + 16 * t) 4 = Some last /\ pages_from b db io ps last first is).
Proof.
  intros b io db d ps t is HB HL HO HN HP. destruct (size_is b io db d ps HB HO HN) as [-> F]. pose proof (fresh_layout b io db d F) as (_ & _ & H8 & _ & _ & _ & _ & LT & HT). unfold iter_pages_for_table. split.
  - intros (it & l & H1 & H2 & H3). destruct (getN (dh_tables (db_header d)) t) as [x|] eqn:E; [|discriminate]. injection H1 as <-. apply collect_result in H2. apply getN_Some_lt in E as EL. apply HT in E as (_ & _ & E1 & E2).
    exists (dh_num (db_header d)), (tb_first x), (tb_last x). split; [exact H8|]. split; [lia|]. split; [exact E1|]. split; [exact E2|]. apply (linked_exact b io db d); try assumption. now exists l.
  - intros (n & first & last & N8 & Ht & N1 & N2 & H). assert (n = dh_num (db_header d)) as -> by congruence. destruct (getN_lt_Some (dh_tables (db_header d)) t) as [x E]; [lia|]. rewrite E. apply HT in E as (_ & _ & E1 & E2).
    assert (first = tb_first x) as -> by congruence. assert (last = tb_last x) as -> by congruence. apply (linked_exact b io db d) in H as (l & LK & <-); [|assumption..]. apply collect_result in LK as (d' & E & _). exists (iter_of d x), l. split; [reflexivity|]. now rewrite E.
Qed.
Print Assumptions c117_table.
(** The rows for kind [k] can be read, and they say [xs], if and only if the bytes of the file say [xs]. *)
Theorem c117_rows : forall b io db d ps k xs, bytes_ok io -> len io < 2 ^ 64 -> only_read b io db d -> number io 4 4 = Some ps -> 40 <= ps ->
  ((exists rs, snd (iter_rows b k d) = Some (DOk rs) /\ Forall2 (fun r x => row_says r k (fst x) (snd x)) rs xs) <-> table_says b db io ps k xs).
Proof. intros b io db d ps k xs HB HL HO HN HP. destruct (size_is b io db d ps HB HO HN) as [-> F]. now apply rows_exact. Qed.
Print Assumptions c117_rows.
(** Rows that can be read say something, so this is all that can be read. *)
Theorem c117_readable : forall b io db d ps k, bytes_ok io -> len io < 2 ^ 64 -> only_read b io db d -> number io 4 4 = Some ps -> 40 <= ps ->
  ((exists rs, snd (iter_rows b k d) = Some (DOk rs)) <-> exists xs, table_says b db io ps k xs).
Proof.
  intros b io db d ps k HB HL HO HN HP. split.
  - intros [rs H]. assert (exists xs, Forall2 (fun r x => row_says r k (fst x) (snd x)) rs xs) as [xs HX].
    { apply iter_rows_iff in H as (_ & _ & _ & _ & _ & _ & V). clear -V. induction rs as [|r rs IH]; [now exists []|]. cbn [forallb] in V. apply andb_prop in V as [V1 V]. destruct (IH V) as [xs HX]. destruct r as [k' vs c|]; [|discriminate]. cbn [is_variant] in V1. destruct (rkind_eq_dec k k') as [<-|]; [|discriminate].
      exists ((numbers vs, texts vs ++ match c with Some a => oa_items a | None => [] end) :: xs). constructor; [now repeat split|exact HX]. }
    exists xs. apply (c117_rows b io db d ps k xs HB HL HO HN HP). now exists rs.
  - intros [xs H]. apply (c117_rows b io db d ps k xs HB HL HO HN HP) in H as (rs & H & _). now exists rs.
Qed.
Print Assumptions c117_readable.
(** A file says at most one thing. *)
Theorem c117_unique : forall b io db ps k xs ys, bytes_ok io -> len io < 2 ^ 64 -> opens io -> number io 4 4 = Some ps -> 40 <= ps -> table_says b db io ps k xs -> table_says b db io ps k ys -> xs = ys.
Proof.
  intros b io db ps k xs ys HB HL HO HN HP HX HY. apply (c117_open io db) in HO as [d HO]. assert (only_read b io db d) as HR by now apply or_open.
  apply (c117_rows b io db d ps k xs HB HL HR HN HP) in HX as (rs & RX & HX). apply (c117_rows b io db d ps k ys HB HL HR HN HP) in HY as (rs' & RY & HY). assert (rs' = rs) as -> by congruence. clear -HX HY.
  revert ys HY. induction HX as [|r [a1 a2] rs xs H _ IH]; intros ys HY; inversion HY as [|r' [c1 c2] rs' ys' H' HF]; subst; [reflexivity|]. f_equal; [|now apply IH].
  destruct r as [k' vs c|]; [|destruct H]. cbn [fst snd row_says] in *. destruct H as (_ & <- & <-), H' as (_ & <- & <-). reflexivity.
Qed.
Print Assumptions c117_unique.
(** Everything else is refused: with an error or a panic, never with other rows and never without an answer. *)
Theorem c117_refused : forall b io db d ps k, bytes_ok io -> len io < 2 ^ 64 -> only_read b io db d -> number io 4 4 = Some ps -> 40 <= ps -> ~ (exists xs, table_says b db io ps k xs) ->
  (exists e, snd (iter_rows b k d) = Some (DErr e)) \/ snd (iter_rows b k d) = Some DPanic.
Proof.
  intros b io db d ps k HB HL HO HN HP H. destruct (snd (iter_rows b k d)) as [[rs|e|]|] eqn:E; [|left; now exists e|now right|].
  - destruct H. apply (c117_readable b io db d ps k HB HL HO HN HP). now exists rs.
  - now apply iter_rows_total in E.
Qed.
Print Assumptions c117_refused.

(** ** Example: the file of C68 with one page with two keys; the same file with the table of keys at a page that does not exist, and with a table of labels at the page of keys *)
Definition c117_file (t first : N) : list N := [0; 0; 0; 0;  98; 0; 0; 0;  1; 0; 0; 0;  2; 0; 0; 0;  5; 0; 0; 0;  9; 0; 0; 0;  0; 0; 0; 0;  t; 0; 0; 0;  2; 0; 0; 0;  first; 0; 0; 0;  1; 0; 0; 0] ++ repeat 0 54 ++ c67_buf.
Definition c117_db (t first : N) : database := mk_db (c117_file t first) DbPlain (mk_dbhdr 98 1 2 5 9 [mk_table (PT (if t =? 5 then KKey else KLabel)) 2 first 1]) [None].
Lemma c117_bytes t first : t < 256 -> first < 256 -> bytes_ok (c117_file t first).
Proof. intros H1 H2. unfold c117_file. apply Forall_app. split; [repeat constructor; assumption|]. apply Forall_app. split; [now apply Forall_forall; intros x HX; apply repeat_spec in HX as ->|repeat constructor]. Qed.
Example c117_example :
  table_says Debug DbPlain (c117_file 5 1) 98 KKey [([1; 1], [DSShort [65; 109]]); ([2; 2], [DSShort [66]])] /\ pages_from Debug DbPlain (c117_file 5 1) 98 1 1 [1] /\
  ~ (exists xs, table_says Debug DbPlain (c117_file 5 2) 98 KKey xs) /\ ~ (exists xs, table_says Debug DbPlain (c117_file 4 1) 98 KLabel xs) /\ ~ opens (takeN 43 (c117_file 5 1)).
Proof.
  assert (only_read Debug (c117_file 5 1) DbPlain (c117_db 5 1)) as R1 by (apply or_open; vm_compute; reflexivity). assert (only_read Debug (c117_file 5 2) DbPlain (c117_db 5 2)) as R2 by (apply or_open; vm_compute; reflexivity).
  assert (only_read Debug (c117_file 4 1) DbPlain (c117_db 4 1)) as R3 by (apply or_open; vm_compute; reflexivity).
  split; [apply (c117_rows Debug (c117_file 5 1) DbPlain (c117_db 5 1)); [now apply c117_bytes|reflexivity|exact R1|reflexivity|discriminate|]; eexists; split; [vm_compute; reflexivity|repeat constructor]|].
  split; [apply pages_last; exists 2, 196; split; [reflexivity|]; split; [easy|]; apply page_exact; [now apply c117_bytes|reflexivity|discriminate|]; eexists; vm_compute; reflexivity|].
  split; [intro H; apply (c117_readable Debug (c117_file 5 2) DbPlain (c117_db 5 2)) in H as [rs H]; [vm_compute in H; discriminate|now apply c117_bytes|reflexivity|exact R2|reflexivity|discriminate]|].
  split; [intro H; apply (c117_readable Debug (c117_file 4 1) DbPlain (c117_db 4 1)) in H as [rs H]; [vm_compute in H; discriminate|now apply c117_bytes|reflexivity|exact R3|reflexivity|discriminate]|].
  intros (_ & _ & n & H & L). vm_compute in H. injection H as <-. vm_compute in L. now apply L.
Qed.
