(** * Reading a database file that was cut short *)
From Coq Require Import NArith ZArith List Bool Lia.
From Coq Require Import ZifyBool ZifyNat ZifyN.
From Verif Require Import Base BaseFacts Str StrFacts StrGood Schema Oa Rows Page Db.
Import ListNotations.
Open Scope N_scope.

(** If [p] reads something in the file and [p'] reads something in its first [n] bytes, it is the same. *)
Definition cutp {A} (n : N) (p p' : parser A) : Prop := forall buf pos r x, p buf pos = Ok r -> p' (takeN n buf) pos = Ok x -> x = r.
Lemma cut_ret {A} n (a : A) : cutp n (ret a) (ret a).
Proof. intros buf pos r x [= <-] [= <-]. reflexivity. Qed.
Lemma cut_fail {A} n e (p : parser A) : cutp n (fail e) p.
Proof. intros buf pos r x H. discriminate. Qed.
Lemma cut_lift {A} n (a : res A) : cutp n (lift a) (lift a).
Proof. intros buf pos r x H H'. unfold lift in *. destruct a; try discriminate. now injection H as <-; injection H' as <-. Qed.
Lemma cut_guard n c e : cutp n (guard c e) (guard c e).
Proof. unfold guard. destruct c; [apply cut_ret|apply cut_fail]. Qed.
Lemma cut_bind {A B} n (p p' : parser A) (f f' : A -> parser B) : cutp n p p' -> (forall a, cutp n (f a) (f' a)) -> cutp n (bind p f) (bind p' f').
Proof.
  intros HP HF buf pos r x H H'. unfold bind in *. destruct (p buf pos) as [[a q]| |] eqn:E; try discriminate. destruct (p' (takeN n buf) pos) as [[a' q']| |] eqn:E'; try discriminate.
  pose proof (HP _ _ _ _ E E') as [= -> ->]. exact (HF _ _ _ _ _ H H').
Qed.
Lemma cut_bytes n m : cutp n (rd_bytes m) (rd_bytes m).
Proof.
  intros buf pos r x H H'. unfold rd_bytes in *. destruct (m =? 0); [congruence|]. destruct (pos + m <=? len buf) eqn:E; [|discriminate]. destruct (pos + m <=? len (takeN n buf)) eqn:E'; [|discriminate].
  injection H as <-. injection H' as <-. rewrite len_takeN in E'. f_equal. apply list_ext. intro i. rewrite !getN_takeN, !getN_dropN, getN_takeN. destruct (i <? m) eqn:I; [|reflexivity]. now replace (pos + i <? n) with true by lia.
Qed.
Lemma cut_seek_to n q : cutp n (seek_to q) (seek_to q).
Proof. intros buf pos r x [= <-] [= <-]. reflexivity. Qed.
Lemma cut_seek_rel n z : cutp n (seek_rel z) (seek_rel z).
Proof. intros buf pos r x H H'. unfold seek_rel in *. congruence. Qed.
Lemma cut_tell n : cutp n tell tell.
Proof. intros buf pos r x [= <-] [= <-]. reflexivity. Qed.
Lemma cut_count {A} n (p p' : parser A) m : cutp n p p' -> cutp n (rd_count m p) (rd_count m p').
Proof. intro HP. induction m as [|m IH]; cbn [rd_count]; [apply cut_ret|]. apply cut_bind; [exact HP|]. intro a. apply cut_bind; [exact IH|]. intro. apply cut_ret. Qed.
Ltac cut := repeat lazymatch goal with
  | |- cutp _ (ret _) _ => apply cut_ret | |- cutp _ (fail _) _ => apply cut_fail | |- cutp _ (lift _) _ => apply cut_lift | |- cutp _ (guard _ _) _ => apply cut_guard
  | |- cutp _ (rd_bytes _) _ => apply cut_bytes | |- cutp _ (rd_le _) _ => unfold rd_le | |- cutp _ rd_u8 _ => unfold rd_u8 | |- cutp _ (rd_be _) _ => unfold rd_be | |- cutp _ (magic_le _ _) _ => unfold magic_le
  | |- cutp _ (seek_to _) _ => apply cut_seek_to | |- cutp _ (seek_rel _) _ => apply cut_seek_rel | |- cutp _ tell _ => apply cut_tell
  | |- cutp _ (rd_count _ _) _ => apply cut_count
  | |- cutp _ (bind _ _) _ => apply cut_bind; [|let x := fresh "x" in intro x; cbv beta] end.

(** ** Strings *)
(** Bytes up to a zero: what is read in the first part is read in the whole, too. *)
Lemma until_grows n : forall f buf pos s q, rd_until0 f rd_u8 (takeN n buf) pos = Ok (s, q) -> forall f', (List.length s < f')%nat -> rd_until0 f' rd_u8 buf pos = Ok (s, q).
Proof.
  induction f as [|f IH]; intros buf pos s q H f' L; [discriminate|]. cbn [rd_until0] in H. apply bind_inv in H as (u & p & H1 & H).
  assert (rd_u8 buf pos = Ok (u, p)) as E.
  { unfold rd_u8, rd_le, bind, rd_bytes in *. change (N.of_nat 1) with 1 in *. cbn [N.eqb] in *. destruct (pos + 1 <=? len (takeN n buf)) eqn:E; [|discriminate]. rewrite len_takeN in E.
    replace (pos + 1 <=? len buf) with true by lia. rewrite <- H1. unfold ret. do 3 f_equal. apply list_ext. intro i. rewrite !getN_takeN, !getN_dropN, getN_takeN. destruct (i <? 1) eqn:I; [|reflexivity]. now replace (pos + i <? n) with true by lia. }
  destruct f' as [|f']; [lia|]. cbn [rd_until0]. unfold bind. rewrite E. destruct (u =? 0); [now apply ret_inv in H as [<- <-]|].
  apply bind_inv in H as (t & p2 & H2 & H). apply ret_inv in H as [<- <-]. cbn [List.length] in L. now rewrite (IH _ _ _ _ H2 f') by lia.
Qed.
Lemma cut_nullstring n : cutp n rd_nullstring rd_nullstring.
Proof.
  intros buf pos [s q] [s' q'] H H'. unfold rd_nullstring in *. apply rd_until0_u8_inv in H' as G. destruct G as (_ & G & _). apply has_len in G. rewrite len_app, len_takeN in G. unfold len in G. cbn [List.length] in G.
  rewrite (until_grows n _ _ _ _ _ H' (S (List.length buf))) in H by lia. congruence.
Qed.
Lemma cut_isrc_body n : cutp n (let* _ <- magic_le 1 3; let* s <- rd_nullstring; ret (DSIsrc s)) (let* _ <- magic_le 1 3; let* s <- rd_nullstring; ret (DSIsrc s)).
Proof. cut. apply cut_nullstring. Qed.
Lemma isrc_body_grows n buf pos r : (let* _ <- magic_le 1 3; let* s <- rd_nullstring; ret (DSIsrc s)) (takeN n buf) pos = Ok r -> (let* _ <- magic_le 1 3; let* s <- rd_nullstring; ret (DSIsrc s)) buf pos = Ok r.
Proof.
  destruct r as [d0 q0]. intro H. unfold magic_le in *. apply bind_inv in H as (u & p & H1 & H). apply bind_inv in H1 as (m & p1 & H0 & H1). apply rd_u8_inv in H0 as [G ->]. rewrite getN_takeN in G. destruct (pos <? n) eqn:E; [|discriminate].
  apply bind_inv in H as (s & p2 & H2 & H). apply guard_inv in H1 as (GM & <-). destruct u. eapply bind_ok; [eapply bind_ok; [apply rd_u8_get, G|rewrite GM; reflexivity]|]. eapply bind_ok; [|exact H].
  unfold rd_nullstring in *. apply rd_until0_u8_inv in H2 as G2. destruct G2 as (_ & G2 & _). apply has_len in G2. rewrite len_app, len_takeN in G2. unfold len in G2. cbn [List.length] in G2.
  apply (until_grows n _ _ _ _ _ H2). lia.
Qed.
Lemma has_takeN n buf pos bs : has buf pos bs -> pos + len bs <= n -> has (takeN n buf) pos bs.
Proof.
  intros (pre & post & -> & <-) L. exists pre, (takeN (n - len pre - len bs) post). split; [|reflexivity]. apply list_ext. intro i. rewrite getN_takeN. rewrite !getN_app, getN_takeN.
  destruct (i <? n) eqn:I; destruct (i <? len pre) eqn:I1; try lia; try reflexivity; destruct (i - len pre <? len bs) eqn:I2; try lia; try reflexivity.
  - now replace (i - len pre - len bs <? n - len pre - len bs) with true by lia.
  - now replace (i - len pre - len bs <? n - len pre - len bs) with false by lia.
Qed.
Lemma le_enc_wrap x : le_enc 2 x = le_enc 2 (x mod 65536).
Proof.
  cbn [le_enc]. f_equal; [|f_equal].
  - replace 65536 with (256 * 256) by reflexivity. now rewrite N.mod_mul_r, N.add_mod, N.mul_comm, N.mod_mul, N.add_0_r, !N.mod_mod by easy.
  - replace 65536 with (256 * 256) by reflexivity. rewrite N.mod_mul_r, (N.mul_comm 256), N.div_add, (N.div_small (x mod 256)), N.add_0_l, N.mod_mod by (try easy; now apply N.mod_lt). reflexivity.
Qed.
(** The length of an ISRC string in the length field. *)
Lemma isrc_len b v buf pos m l p : isrc_len_okb b (DSIsrc v) buf pos = true -> rd_le 2 buf (pos + 1) = Ok (m, p) -> wsub b 16 m 4 = Ok l -> l = len v + 2.
Proof.
  cbn [isrc_len_okb]. intros H HR HW. apply andb_true_iff in H as [H HL]. apply hasb_has in H. rewrite le_enc_wrap in H.
  assert ((len v + 6) mod 65536 < 65536) as HM by now apply N.mod_lt.
  rewrite (rd_le_has 2 ((len v + 6) mod 65536) buf (pos + 1) HM H) in HR. injection HR as <- _.
  unfold wsub, ovf in HW. change (2 ^ 16) with 65536 in *. apply orb_true_iff in HL as [HL|HL].
  - rewrite N.mod_small in HW by lia. replace (4 <=? len v + 6) with true in HW by lia. injection HW as <-. lia.
  - destruct b; [discriminate|]. destruct (len v + 6 <? 65536) eqn:E.
    + rewrite N.mod_small in HW by lia. replace (4 <=? len v + 6) with true in HW by lia. injection HW as <-. lia.
    + assert ((len v + 6) mod 65536 = len v + 6 - 65536) as EQ by (symmetry; apply (N.mod_unique _ _ 1); lia). rewrite EQ in HW. replace (4 <=? len v + 6 - 65536) with false in HW by lia. injection HW as <-.
      lia.
Qed.

(** The whole string.  In the file, an ISRC string must have the right length. *)
Lemma cut_longbody b n buf pos fl m l r x : isrc_len_okb b (fst r) buf (pos - 4) = true -> 4 <= pos -> (exists p, rd_le 2 buf (pos - 3) = Ok (m, p)) -> wsub b 16 m 4 = Ok l ->
  rd_longbody fl l buf pos = Ok r -> rd_longbody fl l (takeN n buf) pos = Ok x -> x = r.
Proof.
  intros HI HP (p3 & HR) HW H H'. unfold rd_longbody in *. unfold orelse in H, H'. destruct (fl =? 0x90) eqn:F9.
  - assert (fl =? 0x40 = false) as F4 by lia. rewrite F4 in *. cbn [guard] in H, H'. unfold bind at 1 in H. unfold bind at 1 in H'. unfold ret at 1 in H. unfold ret at 1 in H'.
    set (body := let* _ <- magic_le 1 3; let* s <- rd_nullstring; ret (DSIsrc s)) in *.
    destruct (body buf pos) as [r1| |] eqn:E; destruct (body (takeN n buf) pos) as [r1'| |] eqn:E'; try discriminate.
    + injection H as <-. injection H' as <-. exact (cut_isrc_body n _ _ _ _ E E').
    + exfalso. injection H as <-. destruct r1 as [d q]. unfold body in E. apply bind_inv in E as (u & p1 & E1 & E). apply bind_inv in E as (s & p2 & E2 & E). apply ret_inv in E as [<- <-].
      cbn [fst] in HI. replace (pos - 3) with (pos - 4 + 1) in HR by lia. pose proof (isrc_len _ _ _ _ _ _ _ HI HR HW) as HL.
      unfold magic_le in E1. apply bind_inv in E1 as (c & p4 & E1 & EM). apply rd_u8_inv in E1 as [GM ->]. apply guard_inv in EM as (EM & <-). apply N.eqb_eq in EM as ->.
      unfold rd_nullstring in E2. apply rd_until0_u8_inv in E2 as (Z & HS & _).
      unfold bind, guard, fail, ret in H'. destruct (l mod 2 =? 0) eqn:L2; [|discriminate]. destruct (rd_count (N.to_nat (l / 2)) (rd_le 2) (takeN n buf) pos) as [[us q2]| |] eqn:EU; try discriminate.
      assert (pos + l <= len (takeN n buf)) as LL.
      { assert (forall k z us q, rd_count k (rd_le 2) (takeN n buf) z = Ok (us, q) -> k <> 0%nat -> z + 2 * N.of_nat k <= len (takeN n buf)) as HC.
        { clear. induction k as [|k IH]; intros z us q H K; [easy|]. cbn [rd_count] in H. apply bind_inv in H as (a & z1 & H1 & H). apply bind_inv in H as (us1 & z2 & H2 & _).
          unfold rd_le in H1. apply bind_inv in H1 as (bs & z3 & H1 & H3). apply ret_inv in H3 as [_ <-]. apply rd_bytes_inv in H1 as HB. destruct k as [|k]; [|apply IH in H2; [lia|easy]].
          unfold rd_bytes in H1. change (N.of_nat 2) with 2 in H1. cbn [N.eqb] in H1. destruct (z + 2 <=? len (takeN n buf)) eqn:EZ; [lia|discriminate]. }
        pose proof (HC _ _ _ _ EU) as HC2. assert (l = 2 * (l / 2)) by (rewrite (N.div_mod l 2) at 1 by easy; lia). rewrite HL in *. lia. }
      rewrite len_takeN in LL. unfold body, magic_le in E'. unfold bind at 1 in E'.
      assert (getN (takeN n buf) pos = Some 3) as GC by (rewrite getN_takeN; now replace (pos <? n) with true by lia).
      assert (has (takeN n buf) (pos + 1) (s ++ [0])) as HC by (apply has_takeN; [exact HS|rewrite len_app; unfold len in *; cbn [List.length]; lia]).
      assert ((let* v <- rd_le 1; guard (v =? 3) EBadMagic) (takeN n buf) pos = Ok (tt, pos + 1)) as EM by (eapply bind_ok; [apply rd_u8_get, GC|reflexivity]).
      rewrite EM in E'. unfold bind in E'. rewrite (rd_nullstring_has _ _ _ Z HC) in E'. discriminate.
    + exfalso. apply isrc_body_grows in E'. fold body in E'. congruence.
    + unfold bind at 1 in H. unfold bind at 1 in H'. cbn [fail] in H, H'.
      revert H H'. match goal with |- ?p buf pos = _ -> _ -> _ => assert (cutp n p p) as HC by cut end. intros H H'. exact (HC _ _ _ _ H H').
  - cbn [guard] in H, H'. unfold bind at 1 in H. unfold bind at 1 in H'. cbn [fail] in H, H'.
    destruct (fl =? 0x40) eqn:F4; cbn [guard] in H, H'; unfold bind, ret, fail in H, H'; try discriminate.
    destruct (rd_bytes l buf pos) as [[v q]| |] eqn:E; try discriminate. destruct (rd_bytes l (takeN n buf) pos) as [[v' q']| |] eqn:E'; try discriminate.
    pose proof (cut_bytes n l _ _ _ _ E E') as [= -> ->]. congruence.
Qed.
Lemma u8_cut n buf pos u p : rd_u8 (takeN n buf) pos = Ok (u, p) -> getN buf pos = Some u /\ p = pos + 1.
Proof. intro H. apply rd_u8_inv in H as [G ->]. rewrite getN_takeN in G. now destruct (pos <? n). Qed.
Lemma cut_dstr b n : cutp n (rd_dstr_strict b) (rd_dstr b).
Proof.
  intros buf pos [d q] [d' q'] H H'. unfold rd_dstr_strict in H. destruct (rd_dstr b buf pos) as [[d0 q0]| |] eqn:E; try discriminate. destruct (isrc_len_okb b d0 buf pos) eqn:HI; [|discriminate]. injection H as -> ->.
  unfold rd_dstr, orelse in E, H'.
  assert (forall bf z, rd_dstr_short b bf pos = Ok z -> exists h, getN bf pos = Some h /\ N.land h 1 = 1) as HS.
  { clear. intros bf [d q] H. unfold rd_dstr_short in H. apply bind_inv in H as (h & p & H & H2). apply rd_u8_inv in H as [G ->]. apply bind_inv in H2 as (u & p & H & H2). apply guard_inv in H as (H & <-). exists h. split; [exact G|lia]. }
  assert (forall bf z, rd_dstr_long b bf pos = Ok z -> exists h, getN bf pos = Some h /\ N.land h 1 = 0) as HG.
  { clear. intros bf [d q] H. unfold rd_dstr_long in H. apply bind_inv in H as (h & p & H & H2). apply rd_u8_inv in H as [G ->]. apply bind_inv in H2 as (u & p & H & H2). apply guard_inv in H as (H & <-). exists h. split; [exact G|lia]. }
  assert (forall h, getN (takeN n buf) pos = Some h -> getN buf pos = Some h) as GT by (intros h G; rewrite getN_takeN in G; now destruct (pos <? n)).
  destruct (rd_dstr_short b buf pos) as [r1| |] eqn:E1; destruct (rd_dstr_short b (takeN n buf) pos) as [r2| |] eqn:E2; try discriminate.
  - injection E as ->. injection H' as ->. assert (cutp n (rd_dstr_short b) (rd_dstr_short b)) as HC by (unfold rd_dstr_short; cut). exact (HC _ _ _ _ E1 E2).
  - exfalso. destruct (HS _ _ E1) as (h & G & O). destruct (HG _ _ H') as (h' & G' & O'). apply GT in G'. rewrite G in G'. injection G' as <-. lia.
  - exfalso. destruct (HS _ _ E2) as (h & G & O). destruct (HG _ _ E) as (h' & G' & O'). apply GT in G. rewrite G in G'. injection G' as <-. lia.
  - clear E1 E2 HS HG GT. unfold rd_dstr_long in E, H'.
    apply bind_inv in E as (fl & p & A1 & E). apply rd_u8_inv in A1 as [G1 ->]. apply bind_inv in E as (u & p & A2 & E). apply guard_inv in A2 as (A2 & <-).
    apply bind_inv in E as (m & p & A3 & E). assert (p = pos + 3) as ->. { unfold rd_le in A3. apply bind_inv in A3 as (bs & p1 & A3 & A). apply ret_inv in A as [_ <-]. apply rd_bytes_inv in A3 as (_ & -> & _). lia. }
    apply bind_inv in E as (l & p & A4 & E). unfold lift in A4. destruct (wsub b 16 m 4) as [l0| |] eqn:W; try discriminate. injection A4 as -> <-.
    apply bind_inv in E as (u1 & p & A5 & E). unfold magic_le in A5. apply bind_inv in A5 as (z & p1 & A5 & A6). apply rd_u8_inv in A5 as [_ ->]. apply guard_inv in A6 as (_ & <-).
    apply bind_inv in H' as (fl' & p & B1 & H'). apply u8_cut in B1 as [G1' ->]. rewrite G1 in G1'. injection G1' as <-. apply bind_inv in H' as (u' & p & B2 & H'). apply guard_inv in B2 as (_ & <-).
    apply bind_inv in H' as (m' & p & B3 & H'). assert (cutp n (rd_le 2) (rd_le 2)) as HC by cut. pose proof (HC _ _ _ _ A3 B3) as [= -> ->]. clear HC.
    apply bind_inv in H' as (l' & p & B4 & H'). unfold lift in B4. rewrite W in B4. injection B4 as <- <-.
    apply bind_inv in H' as (u2 & p & B5 & H'). unfold magic_le in B5. apply bind_inv in B5 as (z' & p1 & B5 & B6). apply rd_u8_inv in B5 as [_ ->]. apply guard_inv in B6 as (_ & <-).
    apply (cut_longbody b n buf (pos + 3 + 1) fl m l (d, q) (d', q')); try easy; [|lia|].
    + cbn [fst]. now replace (pos + 3 + 1 - 4) with pos by lia.
    + exists (pos + 3). now replace (pos + 3 + 1 - 3) with (pos + 1) by lia.
Qed.

(** ** Rows and pages *)
Lemma cut_int n e k : cutp n (rd_int e k) (rd_int e k).
Proof. destruct e; cbn [rd_int]; cut. Qed.
Lemma cut_field n rs rs' f : cutp n rs rs' -> cutp n (rd_field rs f) (rd_field rs' f).
Proof. intro HR. destruct f; cbn [rd_field]; cut; first [apply cut_int|exact HR]. Qed.
Lemma cut_fields n rs rs' fs : cutp n rs rs' -> cutp n (rd_fields rs fs) (rd_fields rs' fs).
Proof. intro HR. induction fs as [|f fs IH]; cbn [rd_fields]; cut; [now apply cut_field|exact IH]. Qed.
Lemma cut_items n rs rs' buf base : cutp n rs rs' -> forall os cur l l', Oa.rd_items rs base cur os buf = Ok l -> Oa.rd_items rs' base cur os (takeN n buf) = Ok l' -> l' = l.
Proof.
  intro HR. induction os as [|o os IH]; intros cur l l' H H'; cbn [Oa.rd_items] in *; [congruence|].
  destruct (rs buf (cur + o)) as [[d q]| |] eqn:E; [|destruct (Oa.rd_items rs base (cur + o) os buf); discriminate|discriminate].
  destruct (rs' (takeN n buf) (cur + o)) as [[d' q']| |] eqn:E'; [|destruct (Oa.rd_items rs' base (cur + o) os (takeN n buf)); discriminate|discriminate].
  pose proof (HR _ _ _ _ E E') as [= -> ->]. destruct (Oa.rd_items rs base base os buf) as [ds| |] eqn:D; try discriminate. destruct (Oa.rd_items rs' base base os (takeN n buf)) as [ds'| |] eqn:D'; try discriminate.
  rewrite (IH _ _ _ D D') in H'. congruence.
Qed.
Lemma cut_oarr n rs rs' off sz k : cutp n rs rs' -> cutp n (rd_oarr rs off sz k) (rd_oarr rs' off sz k).
Proof.
  intros HR buf pos r x H H'. unfold rd_oarr in *. destruct (rd_offs sz k buf pos) as [[o q]| |] eqn:E; try discriminate. destruct (rd_offs sz k (takeN n buf) pos) as [[o' q']| |] eqn:E'; try discriminate.
  assert (cutp n (rd_offs sz k) (rd_offs sz k)) as HC by (unfold rd_offs; cut). pose proof (HC _ _ _ _ E E') as [= -> ->]. destruct (calculate_base pos off) as [base| |]; try discriminate. cbn [res_bind] in *.
  destruct (Oa.rd_items rs base base (of_list o) buf) as [l| |] eqn:D; try discriminate. destruct (Oa.rd_items rs' base base (of_list o) (takeN n buf)) as [l'| |] eqn:D'; try discriminate.
  cbn [res_bind] in *. rewrite (cut_items n rs rs' buf base HR _ _ _ _ D D') in H'. congruence.
Qed.
Lemma cut_row n rs rs' pt : cutp n rs rs' -> cutp n (rd_row rs pt) (rd_row rs' pt).
Proof.
  intro HR. unfold rd_row. destruct pt as [k|c]; [|apply cut_ret]. apply cut_bind; [now apply cut_fields|]. intro vs. cbv beta. destruct (row_oarr k) as [[off m]|]; [|apply cut_ret]. cut. now apply cut_oarr.
Qed.
Lemma cut_rows_at n rs rs' pt base buf : cutp n rs rs' -> forall os acc l l', rd_rows_at rs pt base os acc buf = Ok l -> rd_rows_at rs' pt base os acc (takeN n buf) = Ok l' -> l' = l.
Proof.
  intro HR. induction os as [|o os IH]; intros acc l l' H H'; cbn [rd_rows_at] in *; [congruence|].
  destruct (rd_row rs pt buf (base + o)) as [[r q]| |] eqn:E; try discriminate. destruct (rd_row rs' pt (takeN n buf) (base + o)) as [[r' q']| |] eqn:E'; try discriminate.
  pose proof (cut_row n rs rs' pt HR _ _ _ _ E E') as [= -> ->]. exact (IH _ _ _ H H').
Qed.
Lemma cut_no_rs n : cutp n no_rs no_rs.
Proof. intros buf pos r x H. discriminate. Qed.
Lemma cut_rgroup n : cutp n rd_rgroup rd_rgroup.
Proof. unfold rd_rgroup. cut. Qed.
Lemma cut_dcontent b n rs rs' ps h : cutp n rs rs' -> cutp n (rd_dcontent b rs ps h) (rd_dcontent b rs' ps h).
Proof.
  intro HR. unfold rd_dcontent. cut; try (apply cut_fields, cut_no_rs); try apply cut_rgroup. intros buf pos r y H H'.
  match type of H with match ?X with _ => _ end = _ => destruct X as [m| |] eqn:E; try discriminate end. match type of H' with match ?X with _ => _ end = _ => destruct X as [m'| |] eqn:E'; try discriminate end.
  rewrite (cut_rows_at n rs rs' _ _ _ HR _ _ _ _ E E') in H'. congruence.
Qed.
Lemma cut_page b n rs rs' ps k : cutp n rs rs' -> cutp n (rd_page b rs ps k) (rd_page b rs' ps k).
Proof.
  intro HR. unfold rd_page. apply cut_bind; [unfold rd_phdr; cut; apply cut_fields, cut_no_rs|]. intro h. cbv beta. destruct (is_index_page (ph_flags h)); cut; [|now apply cut_dcontent].
  unfold rd_icontent. cut. apply cut_fields, cut_no_rs.
Qed.
Lemma cut_dbhdr n k : cutp n (rd_dbhdr k) (rd_dbhdr k).
Proof. unfold rd_dbhdr, rd_table, rd_ptype. cut. Qed.
