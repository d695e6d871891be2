(** * Property theorems C102: analysis files and settings files with something else behind them, or cut short *)
From Coq Require Import NArith ZArith List Bool Lia.
From Coq Require Import ZifyBool ZifyNat ZifyN.
From Verif Require Import Base BaseFacts Schema Xor Anlz AnlzSpec Setting SettingFacts Trunc Local PropAnlz.
Import ListNotations.
Open Scope N_scope.

Lemma agree_of q buf buf' : q <= len buf -> takeN q buf' = takeN q buf -> agree q buf buf'.
Proof.
  intros L E. split.
  - assert (len (takeN q buf') = len (takeN q buf)) as E2 by now rewrite E. rewrite !len_takeN in E2. lia.
  - intros i I. assert (getN (takeN q buf') i = getN (takeN q buf) i) as E2 by now rewrite E. rewrite !getN_takeN in E2. now replace (i <? q) with true in E2 by lia.
Qed.

(** C102.  What is read from an analysis file depends only on the bytes up to the position [p] where reading ends. *)
Theorem c102_read : forall b buf a p, rd_anlz b buf 0 = Ok (a, p) ->
  p <= len buf /\ forall buf', takeN p buf' = takeN p buf -> rd_anlz b buf' 0 = Ok (a, p).
Proof. intros b buf a p H. destruct (local_anlz b buf 0 a p ltac:(lia) H) as [[_ L] G]. split; [exact L|]. intros buf' E. apply G. now apply agree_of. Qed.
Print Assumptions c102_read.
(** Whatever is behind it. *)
Theorem c102_behind : forall b buf a p x, rd_anlz b buf 0 = Ok (a, p) -> rd_anlz b (takeN p buf ++ x) 0 = Ok (a, p).
Proof. intros b buf a p x H. destruct (c102_read b buf a p H) as [L G]. apply G. apply takeN_app. rewrite len_takeN. lia. Qed.
Print Assumptions c102_behind.
(** All of these bytes are needed: with less of them, the file is refused.  It is never taken for a file with fewer sections, and there is no panic. *)
Theorem c102_cut : forall b buf a p n, rd_anlz b buf 0 = Ok (a, p) -> n < p -> exists e, rd_anlz b (takeN n buf) 0 = Err e.
Proof. intros b buf a p n H L. apply (short_anlz b buf 0 a p n); [lia|exact H|lia|exact L]. Qed.
Print Assumptions c102_cut.
(** So of the beginnings of a file at most one is read, if they are different analysis files. *)
Theorem c102_prefix : forall b buf buf' a a' p p', rd_anlz b buf 0 = Ok (a, p) -> rd_anlz b buf' 0 = Ok (a', p') ->
  (exists x, takeN p' buf' = takeN p buf ++ x) -> a' = a /\ p' = p.
Proof.
  intros b buf buf' a a' p p' H H' (x & E). pose proof (c102_behind _ _ _ _ [] H') as G. rewrite app_nil_r, E, (c102_behind b buf a p x H) in G. now injection G as <- <-.
Qed.
Print Assumptions c102_prefix.
(** Settings files: the same, and the end is known. *)
Theorem c102_settings : forall t buf s p, bytes_ok buf -> rd_setting t buf 0 = Ok (s, p) ->
  p = 108 + data_size t /\ forall buf', takeN (108 + data_size t) buf' = takeN (108 + data_size t) buf -> rd_setting t buf' 0 = Ok (s, p).
Proof.
  intros t buf s p HB H. destruct (setting_inv t buf 0 s p HB H) as (-> & d & c & HS). split; [lia|]. intros buf' E.
  assert (forall pos bs, has buf pos bs -> pos + len bs <= 108 + data_size t -> has buf' pos bs) as HT.
  { intros pos bs G L. apply (has_takeN (108 + data_size t)) in G; [|exact L]. rewrite <- E in G. destruct G as (pre & post & G & LP). exists pre, (post ++ dropN (108 + data_size t) buf').
    split; [|exact LP]. rewrite <- (takeN_dropN (108 + data_size t) buf') at 1. now rewrite G, <- !app_assoc. }
  apply (setting_read t buf' 0 s d c). unfold setting_at in *.
  destruct HS as (T & D & Z1 & L1 & Z2 & L2 & Z3 & L3 & ED & C & H0 & H1 & H2 & H3 & H4 & H5 & H6 & H7).
  assert (len d = data_size t) as LD.
  { unfold sdata_ok in D. rewrite T in D. destruct (enc_items_ok _ _ (layouts_wf t) D) as (d' & E' & LD & _). rewrite ED in E'. injection E' as <-. now rewrite layouts_size in LD. }
  clear E H.
  repeat (split; [first [assumption|apply HT; [assumption|try rewrite len_app; try rewrite len_le_enc; unfold len in *; cbn [List.length]; lia]]|]). apply HT; [assumption|rewrite ?len_le_enc; unfold len in *; cbn [List.length]; lia].
Qed.
Print Assumptions c102_settings.

(** ** Example: the file of C39 with 362 bytes, something behind it, and cut *)
Definition c102_buf : list N := Eval vm_compute in match enc_anlz Debug c39_anlz with Ok bs => bs | _ => [] end.
Example c102_example : rd_anlz Debug (c102_buf ++ [80; 81; 84; 90]) 0 = Ok (c39_anlz, 362) /\ rd_anlz Debug (takeN 361 c102_buf) 0 = Err EIo /\
  (exists e, rd_anlz Debug (takeN 28 c102_buf) 0 = Err e) /\ rd_anlz Debug (takeN 0 c102_buf) 0 = Err EIo.
Proof. split; [vm_compute; reflexivity|]. split; [vm_compute; reflexivity|]. split; [eexists; vm_compute; reflexivity|vm_compute; reflexivity]. Qed.
Example c102_example_settings : exists bs, enc_setting (default_setting TMy2) = Ok bs /\ bytes_ok bs /\ rd_setting TMy2 (bs ++ [1; 2; 3]) 0 = Ok (default_setting TMy2, 148).
Proof. eexists. split; [vm_compute; reflexivity|]. split; [repeat constructor|vm_compute; reflexivity]. Qed.
