(** * Reading a page that holds all that belongs to it

    A page whose bytes can be read as a file of their own is read the same inside of any file; no further code of /repo is modelled here. *)
From Coq Require Import NArith ZArith List Bool Lia.
From Coq Require Import ZifyBool ZifyNat ZifyN.
From Verif Require Import Base BaseFacts Str StrFacts Schema Oa Rows Page Db Confine.
Import ListNotations.
Open Scope N_scope.

(** The reader of strings, refusing texts that might be taken for an ISRC because of what stands behind them, see [clear_text]. *)
Definition clearb (d : dstr) : bool := match d with DSUcs2 [] => false | DSUcs2 (u :: _) => negb (u mod 256 =? 3) | _ => true end.
Definition rd_dstr_clear (b : build) : parser dstr := fun buf pos => match rd_dstr b buf pos with Ok (d, q) => if clearb d then Ok (d, q) else Err EAssertFail | r => r end.

Section window.
Variables (buf w : list N) (a : N).
Hypothesis HW : has buf a w.
Definition winp {A} (p p' : parser A) : Prop := forall pos x q, p w pos = Ok (x, q) -> p' buf (a + pos) = Ok (x, a + q).
Lemma win_ret {A} (x : A) : winp (ret x) (ret x).
Proof. intros pos y q [= <- <-]. reflexivity. Qed.
Lemma win_fail {A} e (p : parser A) : winp (fail e) p.
Proof. intros pos y q H. discriminate. Qed.
Lemma win_lift {A} (x : res A) : winp (lift x) (lift x).
Proof. intros pos y q H. unfold lift in *. destruct x; try discriminate. now injection H as <- <-. Qed.
Lemma win_guard c e : winp (guard c e) (guard c e).
Proof. unfold guard. destruct c; [apply win_ret|apply win_fail]. Qed.
Lemma win_bind {A B} (p p' : parser A) (f f' : A -> parser B) : winp p p' -> (forall x, winp (f x) (f' x)) -> winp (bind p f) (bind p' f').
Proof. intros HP HF pos y q H. unfold bind in *. destruct (p w pos) as [[x z]| |] eqn:E; try discriminate. rewrite (HP _ _ _ E). now apply HF. Qed.
Lemma win_bytes m : winp (rd_bytes m) (rd_bytes m).
Proof.
  intros pos y q H. unfold rd_bytes in *. destruct (m =? 0) eqn:M; [now injection H as <- <-|]. destruct (pos + m <=? len w) eqn:E; [|discriminate]. injection H as <- <-.
  pose proof (win_len buf w a HW). replace (a + pos + m <=? len buf) with true by lia. rewrite N.add_assoc. do 2 f_equal. apply list_ext. intro i. rewrite !getN_takeN, !getN_dropN. destruct (i <? m) eqn:I; [|reflexivity].
  rewrite <- N.add_assoc. apply (win_get buf w a HW). lia.
Qed.
Lemma win_seek_rel z : winp (seek_rel z) (seek_rel z).
Proof.
  intros pos y q H. unfold seek_rel in *. cbv zeta in *. destruct (Z.of_N pos + z <? 0)%Z eqn:E; [discriminate|]. injection H as <- <-. replace (Z.of_N (a + pos) + z <? 0)%Z with false by lia. do 2 f_equal. lia.
Qed.
Lemma win_count {A} (p p' : parser A) n : winp p p' -> winp (rd_count n p) (rd_count n p').
Proof. intro HP. induction n as [|n IH]; cbn [rd_count]; [apply win_ret|]. apply win_bind; [exact HP|]. intro x. apply win_bind; [exact IH|]. intro. apply win_ret. Qed.
Ltac win := repeat lazymatch goal with
  | |- winp (ret _) _ => apply win_ret | |- winp (fail _) _ => apply win_fail | |- winp (lift _) _ => apply win_lift | |- winp (guard _ _) _ => apply win_guard
  | |- winp (rd_bytes _) _ => apply win_bytes | |- winp (rd_le _) _ => unfold rd_le | |- winp rd_u8 _ => unfold rd_u8 | |- winp (rd_be _) _ => unfold rd_be | |- winp (magic_le _ _) _ => unfold magic_le
  | |- winp (seek_rel _) _ => apply win_seek_rel
  | |- winp (rd_count _ _) _ => apply win_count
  | |- winp (bind _ _) _ => apply win_bind; [|let x := fresh "x" in intro x; cbv beta] end.
(** ** Strings *)
Lemma win_until : forall f pos s q, rd_until0 f rd_u8 w pos = Ok (s, q) -> forall f', (List.length s < f')%nat -> rd_until0 f' rd_u8 buf (a + pos) = Ok (s, a + q).
Proof.
  assert (winp rd_u8 rd_u8) as H8 by win. induction f as [|f IH]; intros pos s q H f' L; [discriminate|]. cbn [rd_until0] in H. apply bind_inv in H as (u & p & H1 & H). apply H8 in H1.
  destruct f' as [|f']; [lia|]. cbn [rd_until0]. unfold bind. rewrite H1. destruct (u =? 0); [now apply ret_inv in H as [<- <-]|].
  apply bind_inv in H as (t & p2 & H2 & H). apply ret_inv in H as [<- <-]. cbn [List.length] in L. now rewrite (IH _ _ _ H2 f') by lia.
Qed.
Lemma win_nullstring : winp rd_nullstring rd_nullstring.
Proof.
  intros pos s q H. unfold rd_nullstring in *. apply rd_until0_u8_inv in H as G. destruct G as (_ & G & _). apply has_len in G. rewrite len_app in G. pose proof (win_len buf w a HW). unfold len in *. cbn [List.length] in G.
  apply (win_until _ _ _ _ H). lia.
Qed.
Lemma win_longbody fl l pos d q : rd_longbody fl l w pos = Ok (d, q) -> clearb d = true -> rd_longbody fl l buf (a + pos) = Ok (d, a + q).
Proof.
  intros H HC. unfold rd_longbody, orelse in *. destruct (fl =? 0x90) eqn:F9.
  - assert (fl =? 0x40 = false) as F4 by lia. rewrite F4 in *. cbn [guard] in H |- *. unfold bind at 1, ret at 1 in H. unfold bind at 1, ret at 1.
    set (body := let* _ <- magic_le 1 3; let* s <- rd_nullstring; ret (DSIsrc s)) in *. assert (winp body body) as HB by (unfold body; win; apply win_nullstring).
    destruct (body w pos) as [[d1 q1]|e|] eqn:E; [injection H as -> ->; now rewrite (HB _ _ _ E)| |discriminate].
    unfold bind at 1 in H. cbn [fail] in H. unfold bind at 1, ret at 1 in H.
    apply bind_inv in H as (u0 & p0 & G0 & H). apply guard_inv in G0 as (G0 & <-). apply bind_inv in H as (us & p1 & H1 & H). apply ret_inv in H as [<- <-].
    destruct (N.to_nat (l / 2)) as [|n] eqn:EN; [cbn [rd_count] in H1; apply ret_inv in H1 as [<- <-]; discriminate|].
    assert (winp (rd_count (S n) (rd_le 2)) (rd_count (S n) (rd_le 2))) as HU by win. pose proof (HU _ _ _ H1) as H2. assert (exists e, body buf (a + pos) = Err e) as [e' EB].
    { cbn [rd_count] in H2. apply bind_inv in H2 as (u & z & R & H2). apply bind_inv in H2 as (us' & z2 & _ & H2). apply ret_inv in H2 as [E1 _]. rewrite <- E1 in HC. cbn [clearb] in HC.
      unfold rd_le in R. apply bind_inv in R as (bs & z3 & R & R2). apply ret_inv in R2 as [E2 _]. unfold rd_bytes in R. change (N.of_nat 2) with 2 in R. cbn [N.eqb] in R. destruct (a + pos + 2 <=? len buf) eqn:EL; [|discriminate]. injection R as R _.
      destruct (getN buf (a + pos)) as [x|] eqn:EX; [|apply getN_None in EX; lia].
      assert (getN bs 0 = Some x) as EG by (rewrite <- R, getN_takeN, getN_dropN; change (0 <? 2) with true; cbv iota; now rewrite N.add_0_r).
      destruct bs as [|x' bs]; [discriminate|]. rewrite getN_0 in EG. injection EG as ->. cbn [le_dec] in E2.
      assert (x <> 3) as NX. { intros ->. rewrite <- E2 in HC. replace (3 + 256 * le_dec bs) with (3 + le_dec bs * 256) in HC by lia. rewrite N.mod_add in HC by easy. discriminate. }
      unfold body, magic_le, bind at 1 2. change (rd_le 1) with rd_u8. rewrite (rd_u8_get _ _ _ EX). unfold guard. replace (x =? 3) with false by lia. eexists. reflexivity. }
    rewrite EB. unfold bind at 1. cbn [fail]. unfold bind at 1, ret at 1. rewrite G0. cbn [guard]. unfold bind at 1, ret at 1. unfold bind. rewrite H2. reflexivity.
  - cbn [guard] in H |- *. unfold bind at 1 in H. cbn [fail] in H. unfold bind at 1. cbn [fail].
    destruct (fl =? 0x40) eqn:F4; cbn [guard] in H |- *; [|unfold bind, fail in H; discriminate].
    match type of H with match ?p w pos with _ => _ end = _ => assert (winp p p) as HB by win; destruct (p w pos) as [[d1 q1]|e|] eqn:E end; [rewrite (HB _ _ _ E); congruence| |discriminate].
    unfold bind at 1 in H. cbn [fail] in H. discriminate.
Qed.
Lemma win_dstr b : winp (rd_dstr_clear b) (rd_dstr b).
Proof.
  intros pos d q H. unfold rd_dstr_clear in H. destruct (rd_dstr b w pos) as [[d0 q0]| |] eqn:E; try discriminate. destruct (clearb d0) eqn:C; [|discriminate]. injection H as -> ->.
  unfold rd_dstr, orelse in *. assert (winp (rd_dstr_short b) (rd_dstr_short b)) as HS by (unfold rd_dstr_short; win).
  destruct (rd_dstr_short b w pos) as [[d1 q1]|e|] eqn:E1; [injection E as -> ->; now rewrite (HS _ _ _ E1)| |discriminate]. clear HS E1.
  unfold rd_dstr_long in E. apply bind_inv in E as (fl & p & A1 & E). assert (winp rd_u8 rd_u8) as H8 by win. pose proof (H8 _ _ _ A1) as B1. apply bind_inv in E as (u & p2 & A2 & E). apply guard_inv in A2 as (A2 & <-).
  assert (exists e', rd_dstr_short b buf (a + pos) = Err e') as [e' ES].
  { unfold rd_dstr_short, bind at 1. rewrite B1. unfold bind at 1, guard. replace (N.land fl 1 =? 1) with false by lia. eexists. reflexivity. }
  rewrite ES. unfold rd_dstr_long. eapply bind_ok; [exact B1|]. cbv beta. unfold bind at 1. rewrite A2. unfold guard, ret at 1.
  apply bind_inv in E as (m & p3 & A3 & E). assert (winp (rd_le 2) (rd_le 2)) as H2 by win. eapply bind_ok; [exact (H2 _ _ _ A3)|]. cbv beta.
  apply bind_inv in E as (l & p4 & A4 & E). assert (winp (lift (wsub b 16 m 4)) (lift (wsub b 16 m 4))) as HL by win. eapply bind_ok; [exact (HL _ _ _ A4)|]. cbv beta.
  apply bind_inv in E as (u1 & p5 & A5 & E). assert (winp (magic_le 1 0) (magic_le 1 0)) as HM by win. eapply bind_ok; [exact (HM _ _ _ A5)|]. cbv beta.
  now apply win_longbody.
Qed.
(** ** Rows and pages *)
Lemma win_int e k : winp (rd_int e k) (rd_int e k).
Proof. destruct e; cbn [rd_int]; win. Qed.
Lemma win_field rs rs' f : winp rs rs' -> winp (rd_field rs f) (rd_field rs' f).
Proof. intro HR. destruct f; cbn [rd_field]; win; first [apply win_int|exact HR]. Qed.
Lemma win_fields rs rs' fs : winp rs rs' -> winp (rd_fields rs fs) (rd_fields rs' fs).
Proof. intro HR. induction fs as [|f fs IH]; cbn [rd_fields]; win; [now apply win_field|exact IH]. Qed.
Lemma win_items rs rs' base : winp rs rs' -> forall os l, Oa.rd_items rs base base os w = Ok l -> Oa.rd_items rs' (a + base) (a + base) os buf = Ok l.
Proof.
  intro HR. induction os as [|o os IH]; intros l H; cbn [Oa.rd_items] in *; [congruence|].
  destruct (rs w (base + o)) as [[d q]| |] eqn:E; [|destruct (Oa.rd_items rs base (base + o) os w); discriminate|discriminate]. rewrite <- N.add_assoc, (HR _ _ _ E).
  destruct (Oa.rd_items rs base base os w) as [ds| |] eqn:D; try discriminate. now rewrite (IH _ eq_refl).
Qed.
Lemma win_oarr rs rs' off sz k : winp rs rs' -> winp (rd_oarr rs off sz k) (rd_oarr rs' off sz k).
Proof.
  intros HR pos x q H. unfold rd_oarr in *. destruct (rd_offs sz k w pos) as [[o z]| |] eqn:E; try discriminate.
  assert (winp (rd_offs sz k) (rd_offs sz k)) as HC by (unfold rd_offs; win). rewrite (HC _ _ _ E). unfold calculate_base in *. destruct (off <=? pos) eqn:EO; [|discriminate]. cbn [res_bind] in *.
  replace (off <=? a + pos) with true by lia. cbn [res_bind]. replace (a + pos - off) with (a + (pos - off)) by lia.
  destruct (Oa.rd_items rs (pos - off) (pos - off) (of_list o) w) as [l| |] eqn:D; try discriminate. rewrite (win_items rs rs' _ HR _ _ D). cbn [res_bind] in *. now injection H as <- <-.
Qed.
Lemma win_row rs rs' pt : winp rs rs' -> winp (rd_row rs pt) (rd_row rs' pt).
Proof.
  intro HR. unfold rd_row. destruct pt as [k|c]; [|apply win_ret]. apply win_bind; [now apply win_fields|]. intro vs. cbv beta. destruct (row_oarr k) as [[off m]|]; [|apply win_ret]. win. now apply win_oarr.
Qed.
Lemma win_rows_at rs rs' pt base : winp rs rs' -> forall os acc l, rd_rows_at rs pt base os acc w = Ok l -> rd_rows_at rs' pt (a + base) os acc buf = Ok l.
Proof.
  intro HR. induction os as [|o os IH]; intros acc l H; cbn [rd_rows_at] in *; [congruence|].
  destruct (rd_row rs pt w (base + o)) as [[r q]| |] eqn:E; try discriminate. rewrite <- N.add_assoc, (win_row rs rs' pt HR _ _ _ E). now apply IH.
Qed.
Lemma win_no_rs : winp no_rs no_rs.
Proof. intros pos x q H. discriminate. Qed.
Lemma win_rgroup : winp rd_rgroup rd_rgroup.
Proof. unfold rd_rgroup. win. Qed.
Lemma win_dcontent b rs rs' ps h : winp rs rs' -> winp (rd_dcontent b rs ps h) (rd_dcontent b rs' ps h).
Proof.
  intro HR. unfold rd_dcontent. apply win_bind; [apply win_fields, win_no_rs|]. intro dh. cbv beta. apply win_bind; [apply win_lift|]. intro heap. cbv beta. intros pos x q H.
  unfold bind at 1 2, tell, seek_to in H. unfold bind at 1 2, tell, seek_to.
  assert (winp (rd_count (N.to_nat (num_row_groups (ph_counts h))) rd_rgroup) (rd_count (N.to_nat (num_row_groups (ph_counts h))) rd_rgroup)) as HC by (apply win_count, win_rgroup).
  apply bind_inv in H as (gs & z & G & H). rewrite <- N.add_assoc. eapply bind_ok; [exact (HC _ _ _ G)|]. cbv beta in *. unfold bind at 1 in H. unfold bind at 1. cbv beta iota in *.
  apply bind_inv in H as (rows & z2 & R & H). destruct (rd_rows_at rs (ph_type h) pos (flat_map present_offsets gs) [] w) as [m| |] eqn:E; try discriminate. injection R as <- <-.
  unfold bind at 1. rewrite (win_rows_at rs rs' _ _ HR _ _ _ E).
  apply bind_inv in H as (u & z3 & R & H). apply guard_inv in R as (R & <-). unfold bind at 1. rewrite R. unfold guard, ret at 1. unfold bind in *. unfold ret in *. congruence.
Qed.
Lemma win_page_read b rs rs' ps k : winp rs rs' -> winp (rd_page b rs ps k) (rd_page b rs' ps k).
Proof.
  intro HR. unfold rd_page. apply win_bind; [unfold rd_phdr; win; apply win_fields, win_no_rs|]. intro h. cbv beta. destruct (is_index_page (ph_flags h)); win; [|now apply win_dcontent].
  unfold rd_icontent. win. apply win_fields, win_no_rs.
Qed.
End window.
