(** * Facts about DeviceSQL strings. *)
From Coq Require Import NArith ZArith List Bool Lia.
From Coq Require Import ZifyBool ZifyNat ZifyN.
From Verif Require Import Base BaseFacts Utf UtfFacts Str.
Import ListNotations.
Open Scope N_scope.
Ltac Zify.zify_post_hook ::= Z.div_mod_to_equations.

(** ** Generic reader lemmas *)
Lemma magic_le_has n m buf pos :
  m < 256 ^ N.of_nat n -> has buf pos (le_enc n m) -> magic_le n m buf pos = Ok (tt, pos + N.of_nat n).
Proof.
  intros Hm H. unfold magic_le. eapply bind_ok; [apply rd_le_has; eassumption|]. cbv beta. now rewrite N.eqb_refl.
Qed.
Lemma magic_le_inv n m buf pos u pos' :
  n <> 0%nat -> bytes_ok buf -> magic_le n m buf pos = Ok (u, pos') ->
  has buf pos (le_enc n m) /\ pos' = pos + N.of_nat n.
Proof.
  intros Hn Hb H. unfold magic_le in H. apply bind_inv in H as (v & p1 & H1 & H2).
  apply guard_inv in H2 as [E <-]. apply N.eqb_eq in E; subst. apply rd_le_inv in H1 as (_ & H1 & ->); easy.
Qed.
Lemma magic_le_no_panic n m buf pos : magic_le n m buf pos <> Panic.
Proof.
  unfold magic_le, bind. pose proof (rd_le_no_panic n buf pos). destruct (rd_le n buf pos) as [[v p]| |]; [|easy|easy].
  unfold guard. now destruct (v =? m).
Qed.
Lemma magic1_get m buf pos :
  magic_le 1 m buf pos =
    match getN buf pos with None => Err EIo | Some v => if v =? m then Ok (tt, pos + 1) else Err EBadMagic end.
Proof.
  unfold magic_le. change (rd_le 1) with rd_u8. unfold bind. destruct (getN buf pos) as [v|] eqn:E.
  - rewrite (rd_u8_get _ _ _ E). unfold guard. now destruct (v =? m).
  - now rewrite (rd_u8_none _ _ E).
Qed.
Lemma le_enc_1 v : v < 256 -> le_enc 1 v = [v].
Proof. intro. cbn [le_enc]. rewrite N.mod_small by lia. easy. Qed.

Lemma wsub_wadd b L l : L < 65536 -> wsub b 16 L 4 = Ok l -> wadd b 16 l 4 = Ok L.
Proof.
  intros HL H. unfold wsub, wadd in *. change (2 ^ 16) with 65536 in *. destruct (4 <=? L) eqn:E.
  - injection H as <-. replace (L - 4 + 4 <? 65536) with true by lia. f_equal; lia.
  - destruct b; [easy|]. unfold ovf in *. change (2 ^ 16) with 65536 in *. injection H as <-.
    replace ((L + 65536 - 4) mod 65536) with (L + 65532) by lia.
    replace (L + 65532 + 4 <? 65536) with false by lia. f_equal. lia.
Qed.
Lemma wadd_wsub b n l : n < 65536 -> wadd b 16 n 4 = Ok l -> l < 65536 /\ wsub b 16 l 4 = Ok n.
Proof.
  intros Hn H. unfold wsub, wadd in *. change (2 ^ 16) with 65536 in *. destruct (n + 4 <? 65536) eqn:E.
  - injection H as <-. replace (4 <=? n + 4) with true by lia. split; [lia|f_equal; lia].
  - destruct b; [easy|]. unfold ovf in *. change (2 ^ 16) with 65536 in *. injection H as <-.
    replace ((n + 4) mod 65536) with (n + 4 - 65536) by lia.
    replace (4 <=? n + 4 - 65536) with false by lia. split; [lia|]. f_equal. lia.
Qed.

(** ** Spec vocabulary *)

(** The exact condition under which a UTF-16 string is mistaken for an ISRC string: its first byte is the ISRC marker,
    and a terminating zero byte is found somewhere behind it. *)
Definition ambig_at (d : dstr) (buf : list N) (pos : N) : Prop :=
  (exists us, d = DSUcs2 us) /\ getN buf (pos + 4) = Some 3 /\ exists i, pos + 5 <= i /\ getN buf i = Some 0.

Definition isrc_no_nul (d : dstr) : Prop := forall v, d = DSIsrc v -> Forall (fun x => x <> 0) v.

(** The length field stored at [pos + 1] agrees with the content if the value is an ISRC string. *)
Definition isrc_len_ok (b : build) (d : dstr) (buf : list N) (pos : N) : Prop :=
  forall v, d = DSIsrc v ->
    has buf (pos + 1) (le_enc 2 (len v + 6)) /\ (len v + 6 < 65536 \/ (b = Release /\ len v + 2 < 65536)).

Lemma le_enc2_mod v : le_enc 2 (v mod 65536) = le_enc 2 v.
Proof. cbn [le_enc]. f_equal; [lia|]. f_equal. lia. Qed.
Lemma le_enc2_inj v w : v < 65536 -> le_enc 2 v = le_enc 2 w -> v = w mod 65536.
Proof. cbn [le_enc]. intros H [= A B]. lia. Qed.
Lemma isrc_wadd b n : n + 4 < 65536 \/ (b = Release /\ n < 65536) -> wadd b 16 n 4 = Ok ((n + 4) mod 65536).
Proof.
  intro H. unfold wadd, ovf. change (2 ^ 16) with 65536. destruct (n + 4 <? 65536) eqn:E.
  - f_equal. rewrite N.mod_small; lia.
  - destruct H as [H|[-> H]]; [lia|]. reflexivity.
Qed.

(** ** Write, then read *)
Lemma header_odd n : n <= 126 ->
  N.lor (2 * (n + 1)) 1 mod 256 = 2 * (n + 1) + 1.
Proof.
  intro H. assert (N.lor (2 * (n + 1)) 1 = 2 * (n + 1) + 1) as ->.
  { replace (2 * (n + 1)) with (N.double (n + 1)) by (rewrite N.double_spec; lia).
    destruct (n + 1) as [|p] eqn:E; [easy|]. reflexivity. }
  apply N.mod_small. lia.
Qed.
Lemma odd_land n : N.land (2 * n + 1) 1 = 1.
Proof. change 1 with (N.ones 1) at 2. rewrite N.land_ones. change (2 ^ 1) with 2. lia. Qed.
Lemma land1_mod n : N.land n 1 = n mod 2.
Proof. change 1 with (N.ones 1). now rewrite N.land_ones. Qed.

Lemma rd_short_odd b buf pos v :
  len v <= 126 -> has buf pos (2 * (len v + 1) + 1 :: v) ->
  rd_dstr_short b buf pos = Ok (DSShort v, pos + 1 + len v).
Proof.
  intros L H. apply has_cons in H as [G H]. unfold rd_dstr_short.
  eapply bind_ok; [apply rd_u8_get; eassumption|]. rewrite odd_land. cbn [N.eqb Pos.eqb guard].
  eapply bind_ok; [reflexivity|].
  replace (N.shiftr (2 * (len v + 1) + 1) 1) with (len v + 1).
  2:{ rewrite N.shiftr_div_pow2. change (2 ^ 1) with 2. lia. }
  rewrite wsub_ok by lia. eapply bind_ok; [reflexivity|]. replace (len v + 1 - 1) with (len v) by lia.
  eapply bind_ok; [apply rd_bytes_has; eassumption|]. reflexivity.
Qed.

Lemma ucs2_units_wr buf pos us :
  Forall is_u16 us -> has buf pos (flat_map (le_enc 2) us) ->
  rd_count (length us) (rd_le 2) buf pos = Ok (us, pos + 2 * len us).
Proof.
  intros HU H. assert (len (flat_map (le_enc 2) us) = 2 * len us) as L.
  { clear. induction us; [easy|]. cbn [flat_map]. rewrite len_app, len_le_enc, IHus, len_cons. lia. }
  rewrite <- L. apply rd_count_has with (P := is_u16); [|easy|easy].
  intros v p Hv Hh. rewrite len_le_enc. apply rd_le_has; [|easy]. unfold is_u16 in Hv. exact Hv.
Qed.
Lemma len_ucs2 us : len (flat_map (le_enc 2) us) = 2 * len us.
Proof. induction us; [easy|]. cbn [flat_map]. rewrite len_app, len_le_enc, IHus, len_cons. lia. Qed.
Lemma len_body_count d n : dstr_byte_count d = Some n -> len (dstr_body d) = n.
Proof.
  unfold dstr_byte_count, dstr_body. destruct d as [v|v|v|us];
    (match goal with |- context [if ?c then _ else _] => destruct c; [|easy] end); intros [= <-].
  - easy.
  - autorewrite with len. lia.
  - easy.
  - rewrite len_ucs2. lia.
Qed.
Lemma byte_count_bound d n : dstr_byte_count d = Some n -> n < 65536.
Proof.
  unfold dstr_byte_count. match goal with |- context [if ?c then _ else _] => destruct c eqn:E; [|easy] end.
  intros [= <-]. lia.
Qed.

Definition is_short (d : dstr) : bool := match d with DSShort _ => true | _ => false end.

Lemma enc_long b d : is_short d = false ->
  dstr_enc b d = (do! n <- unwrap (dstr_byte_count d);
                  do! l <- wadd b 16 n 4; Ok (dstr_flags d :: le_enc 2 l ++ 0 :: dstr_body d)).
Proof. now destruct d. Qed.

Lemma enc_long_inv b d bs : is_short d = false -> dstr_enc b d = Ok bs ->
  exists n l, dstr_byte_count d = Some n /\ n < 65536 /\ wadd b 16 n 4 = Ok l /\ l < 65536 /\
              wsub b 16 l 4 = Ok n /\ bs = dstr_flags d :: le_enc 2 l ++ 0 :: dstr_body d /\ len bs = n + 4.
Proof.
  intros HS H. rewrite enc_long in H by easy. destruct (dstr_byte_count d) as [n|] eqn:E; [|easy].
  cbn [unwrap res_bind] in H. pose proof (byte_count_bound _ _ E) as Hn.
  destruct (wadd b 16 n 4) as [l| |] eqn:W; [|easy|easy]. cbn [res_bind] in H. injection H as <-.
  destruct (wadd_wsub _ _ _ Hn W) as [Hl Hs]. exists n, l. repeat split; try easy.
  autorewrite with len. rewrite (len_body_count _ _ E). lia.
Qed.

Lemma flags_even d : N.land (dstr_flags d) 1 =? 0 = true.
Proof. now destruct d. Qed.

(** The body reader on the body of [d]. *)
Lemma rd_longbody_wr d n buf pos :
  is_short d = false -> dstr_inv d -> isrc_no_nul d -> dstr_byte_count d = Some n ->
  has buf pos (dstr_body d) ->
  ~ ((exists us, d = DSUcs2 us) /\ getN buf pos = Some 3 /\ exists i, pos + 1 <= i /\ getN buf i = Some 0) ->
  rd_longbody (dstr_flags d) n buf pos = Ok (d, pos + n).
Proof.
  intros HS HI HN HC H HA. pose proof (len_body_count _ _ HC) as HL. unfold rd_longbody. destruct d as [v|v|v|us]; [easy| | |].
  - (* Isrc *)
    cbn [dstr_flags dstr_body] in *. unfold orelse. apply has_cons in H as [G H].
    match goal with |- context [match ?p buf pos with _ => _ end] =>
      replace (p buf pos) with (Ok (DSIsrc v, pos + n)) end; [easy|].
    symmetry. eapply bind_ok; [reflexivity|]. eapply bind_ok.
    { rewrite magic1_get, G. reflexivity. }
    eapply bind_ok. { apply rd_nullstring_has; [now apply (HN v)|easy]. }
    unfold ret. do 2 f_equal. rewrite <- HL. autorewrite with len. lia.
  - (* Ascii *)
    cbn [dstr_flags dstr_body] in *. unfold orelse at 1. cbn [N.eqb Pos.eqb guard]. unfold bind at 1, fail.
    unfold orelse. rewrite <- HL.
    match goal with |- context [match ?p buf pos with _ => _ end] =>
      replace (p buf pos) with (Ok (DSAscii v, pos + len v)) end; [easy|].
    symmetry. eapply bind_ok; [reflexivity|]. eapply bind_ok; [apply rd_bytes_has; eassumption|]. reflexivity.
  - (* Ucs2 *)
    cbn [dstr_flags dstr_body] in *. unfold orelse at 1.
    match goal with |- context [match ?p buf pos with _ => _ end] =>
      assert (exists e, p buf pos = Err e) as [e ->] end.
    { unfold bind. cbn [N.eqb Pos.eqb guard ret]. rewrite magic1_get.
      destruct (getN buf pos) as [w|] eqn:G; [|eauto]. destruct (w =? 3) eqn:E; [|eauto].
      apply N.eqb_eq in E; subst w.
      pose proof (rd_nullstring_no_panic buf (pos + 1)) as NP.
      destruct (rd_nullstring buf (pos + 1)) as [[s q]| |] eqn:R; [|eauto|easy].
      exfalso. apply HA. split; [eauto|]. split; [easy|]. apply rd_nullstring_ok_iff. eauto. }
    unfold orelse. cbn [N.eqb Pos.eqb guard]. unfold bind at 1, fail.
    assert (n = 2 * len us) as ->. { rewrite <- HL. apply len_ucs2. }
    unfold bind at 1, ret at 1. replace ((2 * len us) mod 2 =? 0) with true by lia.
    eapply bind_ok; [reflexivity|]. eapply bind_ok.
    { replace (2 * len us / 2) with (len us) by lia. unfold len at 1. rewrite Nnat.Nat2N.id.
      apply ucs2_units_wr; [apply HI|easy]. }
    reflexivity.
Qed.

Lemma dstr_wr b d bs buf pos :
  dstr_inv d -> isrc_no_nul d -> dstr_enc b d = Ok bs -> has buf pos bs -> ~ ambig_at d buf pos ->
  rd_dstr b buf pos = Ok (d, pos + len bs).
Proof.
  intros HI HN HE H HA. unfold rd_dstr, orelse. destruct (is_short d) eqn:HS.
  - destruct d as [v| | |]; try easy. destruct HI as [HL HO]. cbn [dstr_enc] in HE.
    rewrite header_odd in HE by easy. injection HE as <-.
    rewrite (rd_short_odd b _ _ _ HL H). rewrite len_cons. do 2 f_equal. lia.
  - destruct (enc_long_inv _ _ _ HS HE) as (n & l & HC & Hn & HW & Hl & HB & -> & HLen). rewrite HLen.
    apply has_cons in H as [G0 H]. apply has_app in H as [H1 H]. rewrite len_le_enc in H.
    apply has_cons in H as [G3 H].
    assert (rd_dstr_short b buf pos = Err EAssertFail) as ->.
    { unfold rd_dstr_short. unfold bind at 1. rewrite (rd_u8_get _ _ _ G0). unfold bind at 1, guard.
      pose proof (flags_even d) as F. apply N.eqb_eq in F. rewrite F. reflexivity. }
    unfold rd_dstr_long. eapply bind_ok; [apply rd_u8_get; eassumption|]. rewrite flags_even.
    eapply bind_ok; [reflexivity|]. eapply bind_ok; [apply rd_le_has; eassumption|]. rewrite HB.
    eapply bind_ok; [reflexivity|]. eapply bind_ok. { rewrite magic1_get, G3. reflexivity. }
    rewrite rd_longbody_wr; try easy.
    + do 2 f_equal. simpl N.of_nat. lia.
    + intros (U & G & i & Hi & Gi). apply HA. split; [easy|]. simpl N.of_nat in *. split.
      * replace (pos + 4) with (pos + 1 + 2 + 1) by lia. easy.
      * exists i. split; [lia|easy].
Qed.

(** When the condition does hold, the value that is read is an ISRC string. *)
Lemma dstr_ambig b d bs buf pos :
  dstr_inv d -> dstr_enc b d = Ok bs -> has buf pos bs -> ambig_at d buf pos ->
  exists v p, rd_dstr b buf pos = Ok (DSIsrc v, p).
Proof.
  intros HI HE H ((us & ->) & G4 & Hz).
  destruct (enc_long_inv b (DSUcs2 us) bs eq_refl HE) as (n & l & HC & Hn & HW & Hl & HB & -> & HLen).
  apply has_cons in H as [G0 H]. apply has_app in H as [H1 H]. rewrite len_le_enc in H.
  apply has_cons in H as [G3 H]. unfold rd_dstr, orelse.
  assert (rd_dstr_short b buf pos = Err EAssertFail) as ->.
  { unfold rd_dstr_short. unfold bind at 1. now rewrite (rd_u8_get _ _ _ G0). }
  apply rd_nullstring_ok_iff in Hz as (v & p & Hz). exists v, p.
  unfold rd_dstr_long. eapply bind_ok; [apply rd_u8_get; eassumption|]. eapply bind_ok; [reflexivity|].
  eapply bind_ok; [apply rd_le_has; eassumption|]. rewrite HB. eapply bind_ok; [reflexivity|].
  eapply bind_ok. { rewrite magic1_get, G3. reflexivity. }
  simpl N.of_nat. replace (pos + 1 + 2 + 1) with (pos + 4) by lia.
  unfold rd_longbody, orelse. cbn [dstr_flags]. unfold bind at 1. cbn [N.eqb Pos.eqb guard ret].
  unfold bind at 1. rewrite magic1_get, G4. cbn [N.eqb Pos.eqb]. unfold bind at 1.
  replace (pos + 4 + 1) with (pos + 5) by lia. rewrite Hz. reflexivity.
Qed.

(** ** Read, then write back *)
Lemma shiftr1 n : N.shiftr n 1 = n / 2.
Proof. rewrite N.shiftr_div_pow2. easy. Qed.

Lemma rd_dstr_inv b buf pos d pos' :
  bytes_ok buf -> len buf < 2 ^ 64 - 1 -> rd_dstr b buf pos = Ok (d, pos') ->
  dstr_inv d /\ isrc_no_nul d /\
  (isrc_len_ok b d buf pos -> exists bs, dstr_enc b d = Ok bs /\ has buf pos bs /\ pos' = pos + len bs).
Proof.
  intros Hb Hbig H. unfold rd_dstr, orelse in H.
  destruct (rd_dstr_short b buf pos) as [[d0 p0]| |] eqn:RS; [| |easy].
  - injection H as -> ->. unfold rd_dstr_short in RS. apply bind_inv in RS as (h & p1 & R1 & RS).
    apply rd_u8_inv in R1 as [G0 ->]. apply bind_inv in RS as (u & p2 & R2 & RS).
    apply guard_inv in R2 as [E <-]. apply bind_inv in RS as (n & p3 & R3 & RS).
    apply bind_inv in RS as (v & p4 & R4 & RS). apply ret_inv in RS as [<- <-].
    rewrite land1_mod in E. apply N.eqb_eq in E. pose proof (bytes_ok_get _ _ _ Hb G0) as Hh.
    rewrite shiftr1 in R3. unfold lift, wsub in R3. destruct (1 <=? h / 2) eqn:E1.
    + injection R3 as <- <-. apply rd_bytes_inv in R4 as (L & -> & HV).
      assert (has buf (pos + 1) v) as Hv.
      { destruct HV as [Z|HV]; [|easy]. rewrite Z in L. apply len_0_nil in L. subst. apply has_nil.
        apply getN_Some_lt in G0. lia. }
      repeat split.
      * lia.
      * now apply (has_bytes_ok _ _ _ Hb Hv).
      * intros w [=].
      * intros _. cbn [dstr_enc]. rewrite header_odd by lia. eexists. split; [reflexivity|]. split.
        -- apply has_cons. split; [|easy]. rewrite G0. f_equal. lia.
        -- rewrite len_cons. lia.
    + destruct b; [easy|]. unfold ovf in R3. injection R3 as <- <-. exfalso.
      assert (h / 2 = 0) as Z by lia. rewrite Z in R4. change ((0 + 2 ^ 64 - 1) mod 2 ^ 64) with (2 ^ 64 - 1) in R4.
      apply rd_bytes_inv in R4 as (L & -> & [HV|HV]); [discriminate|]. apply has_len in HV. lia.
  - clear RS. unfold rd_dstr_long in H. apply bind_inv in H as (fl & p1 & R1 & H).
    apply rd_u8_inv in R1 as [G0 ->]. apply bind_inv in H as (u & p2 & R2 & H).
    apply guard_inv in R2 as [E <-]. apply bind_inv in H as (L & p3 & R3 & H).
    apply rd_le_inv in R3 as (HL & H1 & ->); [|easy|easy]. change (256 ^ N.of_nat 2) with 65536 in HL.
    apply bind_inv in H as (l & p4 & R4 & H).
    assert (wsub b 16 L 4 = Ok l /\ p4 = pos + 1 + N.of_nat 2) as [W ->].
    { unfold lift in R4. destruct (wsub b 16 L 4); [|easy|easy]. now injection R4 as <- <-. }
    clear R4. apply bind_inv in H as (u' & p5 & R5 & H). apply magic_le_inv in R5 as [H3 ->]; [|easy|easy].
    pose proof (wsub_wadd _ _ _ HL W) as WA. simpl N.of_nat in *. rewrite le_enc_1 in H3 by lia.
    apply has_cons in H3 as [G3 _]. unfold rd_longbody in H. set (q := pos + 1 + 2 + 1) in *.
    assert (forall body, has buf q body -> has buf pos (fl :: le_enc 2 L ++ 0 :: body)) as Hall.
    { intros body Hbody. apply has_cons. split; [easy|]. apply has_app. rewrite len_le_enc. simpl N.of_nat.
      split; [easy|]. apply has_cons. split; [easy|exact Hbody]. }
    assert (forall (dd : dstr), is_short dd = false -> dstr_flags dd = fl -> dstr_byte_count dd = Some l ->
              dstr_enc b dd = Ok (fl :: le_enc 2 L ++ 0 :: dstr_body dd)) as Henc.
    { intros dd S F C. rewrite enc_long by easy. rewrite C. cbn [unwrap res_bind]. rewrite WA. cbn [res_bind].
      now rewrite F. }
    assert (l < 65536) as Hl.
    { unfold wsub in W. destruct (4 <=? L); [injection W as <-; lia|]. destruct b; [easy|]. injection W as <-.
      apply N.mod_lt. easy. }
    unfold orelse at 1 in H.
    match type of H with context [match ?p buf q with _ => _ end] => destruct (p buf q) as [[d1 p1]| |] eqn:RI end;
      [| |easy].
    + (* Isrc *)
      injection H as -> ->. apply bind_inv in RI as (u1 & p5 & R5 & RI). apply guard_inv in R5 as [F <-].
      apply bind_inv in RI as (u2 & p6 & R6 & RI). apply magic_le_inv in R6 as [H4 ->]; [|easy|easy].
      rewrite le_enc_1 in H4 by lia. apply bind_inv in RI as (s & p7 & R7 & RI). apply ret_inv in RI as [<- <-].
      apply rd_nullstring_inv in R7 as (NZ & Hs & ->). apply N.eqb_eq in F. subst fl.
      assert (has buf q (3 :: s ++ [0])) as Hbody. { apply has_cons in H4 as [G4 _]. now apply has_cons. }
      repeat split.
      * apply (has_bytes_ok _ _ _ Hb) in Hs. now apply bytes_ok_app in Hs.
      * now intros v [= <-].
      * intro HK. destruct (HK s eq_refl) as [HK1 HK2].
        assert (L = (len s + 2 + 4) mod 65536) as EL.
        { replace (len s + 2 + 4) with (len s + 6) by lia. apply le_enc2_inj; [easy|].
          apply (has_inj buf (pos + 1)); [easy|easy|]. now rewrite !len_le_enc. }
        exists (0x90 :: le_enc 2 L ++ 0 :: dstr_body (DSIsrc s)). split; [|split; [now apply Hall|]].
        2:{ subst q. cbn [dstr_body]. autorewrite with len. simpl N.of_nat. lia. }
        rewrite enc_long by easy. unfold dstr_byte_count. replace (len s + 2 <? 65536) with true by (destruct HK2 as [?|[? ?]]; lia).
        cbn [unwrap res_bind]. rewrite isrc_wadd by (destruct HK2 as [?|[-> ?]]; [left|right; split]; (easy || lia)). rewrite <- EL. reflexivity.
    + unfold orelse in H.
      match type of H with context [match ?p buf q with _ => _ end] => destruct (p buf q) as [[d1 p1]| |] eqn:RA end;
        [| |easy].
      * (* Ascii *)
        injection H as -> ->. apply bind_inv in RA as (u1 & p5 & R5 & RA). apply guard_inv in R5 as [F <-].
        apply bind_inv in RA as (v & p6 & R6 & RA). apply ret_inv in RA as [<- <-].
        apply rd_bytes_inv in R6 as (LV & -> & HV). apply N.eqb_eq in F. subst fl.
        assert (has buf q v) as Hv.
        { destruct HV as [Z|HV]; [|easy]. rewrite Z in LV. apply len_0_nil in LV. subst v. apply has_nil.
          apply getN_Some_lt in G3. subst q. lia. }
        repeat split.
        -- now apply (has_bytes_ok _ _ _ Hb Hv).
        -- intros w [=].
        -- intros _. rewrite (Henc (DSAscii v)); [|easy|easy|].
           2:{ unfold dstr_byte_count. rewrite LV. now replace (l <? 65536) with true by lia. }
           eexists. split; [reflexivity|]. split; [now apply Hall|]. subst q. cbn [dstr_body]. autorewrite with len.
           simpl N.of_nat. lia.
      * (* Ucs2 *)
        clear RA RI. apply bind_inv in H as (u1 & p5 & R5 & H). apply guard_inv in R5 as [F <-].
        apply bind_inv in H as (u2 & p6 & R6 & H). apply guard_inv in R6 as [EV <-].
        apply bind_inv in H as (us & p7 & R7 & H). apply ret_inv in H as [<- <-]. apply N.eqb_eq in F, EV. subst fl.
        apply (rd_count_inv (le_enc 2) (rd_le 2) is_u16) in R7.
        2:{ intros v p p' R. apply rd_le_inv in R as (A & B & ->); [|easy|easy]. rewrite len_le_enc. easy. }
        destruct R7 as (LU & FU & HU & ->). rewrite len_ucs2.
        assert (len us = l / 2) as LU'. { unfold len. rewrite LU. lia. }
        assert (has buf q (flat_map (le_enc 2) us)) as Hu.
        { destruct HU as [Z|HU]; [|easy]. rewrite Z in LU. destruct us; [|easy]. simpl. apply has_nil.
          apply getN_Some_lt in G3. subst q. lia. }
        repeat split.
        -- exact FU.
        -- intros w [=].
        -- intros _. rewrite (Henc (DSUcs2 us)); [|easy|easy|].
           2:{ unfold dstr_byte_count. replace (len us * 2) with l by lia. now replace (l <? 65536) with true by lia. }
           eexists. split; [reflexivity|]. split; [now apply Hall|]. subst q. cbn [dstr_body]. autorewrite with len.
           rewrite len_ucs2. simpl N.of_nat. lia.
Qed.

(** ** Panics *)
Lemma rd_longbody_no_panic fl l buf pos : rd_longbody fl l buf pos <> Panic.
Proof.
  unfold rd_longbody, orelse, bind, guard.
  assert (forall n p, rd_count n (rd_le 2) buf p <> Panic) as HC.
  { intros n p. apply rd_count_no_panic. intro. apply rd_le_no_panic. }
  destruct (fl =? 0x90); cbn [ret fail].
  - pose proof (magic_le_no_panic 1 3 buf pos). destruct (magic_le 1 3 buf pos) as [[u p]| |]; [| |easy].
    + pose proof (rd_nullstring_no_panic buf p). destruct (rd_nullstring buf p) as [[s q]| |]; [easy| |easy].
      destruct (fl =? 0x40).
      * pose proof (rd_bytes_no_panic l buf pos). cbn [ret]. destruct (rd_bytes l buf pos) as [[v p1]| |]; [easy| |easy].
        destruct (l mod 2 =? 0); cbn; [|easy].
        specialize (HC (N.to_nat (l / 2)) pos). destruct (rd_count _ (rd_le 2) buf pos) as [[us p2]| |]; easy.
      * cbn. destruct (l mod 2 =? 0); cbn; [|easy].
        specialize (HC (N.to_nat (l / 2)) pos). destruct (rd_count _ (rd_le 2) buf pos) as [[us p2]| |]; easy.
    + destruct (fl =? 0x40).
      * pose proof (rd_bytes_no_panic l buf pos). cbn [ret]. destruct (rd_bytes l buf pos) as [[v p1]| |]; [easy| |easy].
        destruct (l mod 2 =? 0); cbn; [|easy].
        specialize (HC (N.to_nat (l / 2)) pos). destruct (rd_count _ (rd_le 2) buf pos) as [[us p2]| |]; easy.
      * cbn. destruct (l mod 2 =? 0); cbn; [|easy].
        specialize (HC (N.to_nat (l / 2)) pos). destruct (rd_count _ (rd_le 2) buf pos) as [[us p2]| |]; easy.
  - destruct (fl =? 0x40); [|easy]. pose proof (rd_bytes_no_panic l buf pos). cbn [ret].
    destruct (rd_bytes l buf pos) as [[v p1]| |]; easy.
Qed.

Lemma rd_dstr_panic b buf pos :
  bytes_ok buf ->
  (rd_dstr b buf pos = Panic <->
   b = Debug /\ (getN buf pos = Some 1 \/
                 exists h lo hi, getN buf pos = Some h /\ h mod 2 = 0 /\ getN buf (pos + 1) = Some lo /\
                                 getN buf (pos + 2) = Some hi /\ lo + 256 * hi < 4)).
Proof.
  intro Hb. unfold rd_dstr, orelse, rd_dstr_short, rd_dstr_long.
  destruct (getN buf pos) as [h|] eqn:G0.
  2:{ unfold bind. rewrite (rd_u8_none _ _ G0). split; [easy|]. intros [_ [[=]|(h & lo & hi & [=] & _)]]. }
  unfold bind. rewrite !(rd_u8_get _ _ _ G0), !land1_mod.
  destruct (h mod 2 =? 1) eqn:E.
  - unfold guard at 1, ret at 1. rewrite shiftr1. apply N.eqb_eq in E.
    replace (h mod 2 =? 0) with false by lia. unfold guard, fail.
    unfold lift, wsub, ovf. destruct (1 <=? h / 2) eqn:E1.
    + pose proof (rd_bytes_no_panic (h / 2 - 1) buf (pos + 1)).
      destruct (rd_bytes (h / 2 - 1) buf (pos + 1)) as [[v p]| |]; [| |easy].
      all: split; [easy|]; intros [_ [[= ->]|(h' & lo & hi & [= <-] & HM & _)]]; [|lia].
      all: discriminate E1.
    + assert (h = 1) as -> by lia. destruct b; [split; [|easy]; intros _; split; [easy|now left]|].
      pose proof (rd_bytes_no_panic ((1 / 2 + 2 ^ 64 - 1) mod 2 ^ 64) buf (pos + 1)) as NP.
      destruct (rd_bytes ((1 / 2 + 2 ^ 64 - 1) mod 2 ^ 64) buf (pos + 1)) as [[v p]| |]; [| |easy]; split; easy.
  - unfold guard at 1, fail. apply N.eqb_neq in E. replace (h mod 2 =? 0) with true by lia.
    unfold guard at 1, ret at 1.
    destruct (rd_le 2 buf (pos + 1)) as [[L p2]|e|] eqn:R.
    + apply rd_le_inv in R as (HL & H1 & ->); [|easy|easy]. change (256 ^ N.of_nat 2) with 65536 in HL.
      cbn [le_enc] in H1. apply has_cons in H1 as [G1 H1]. apply has_cons in H1 as [G2 _].
      replace (pos + 1 + 1) with (pos + 2) in G2 by lia.
      assert (L = L mod 256 + 256 * (L / 256 mod 256)) as EL by lia.
      unfold lift, wsub, ovf. destruct (4 <=? L) eqn:E4.
      * pose proof (magic_le_no_panic 1 0 buf (pos + 1 + N.of_nat 2)).
        destruct (magic_le 1 0 buf (pos + 1 + N.of_nat 2)) as [[u p3]| |]; [| |easy].
        -- split; [intro X; now apply rd_longbody_no_panic in X|].
           intros [_ [[= ->]|(h' & lo & hi & _ & _ & G1' & G2' & HS)]]; [easy|].
           rewrite G1 in G1'; rewrite G2 in G2'. injection G1' as <-; injection G2' as <-. lia.
        -- split; [easy|]. intros [_ [[= ->]|(h' & lo & hi & _ & _ & G1' & G2' & HS)]]; [easy|].
           rewrite G1 in G1'; rewrite G2 in G2'. injection G1' as <-; injection G2' as <-. lia.
      * destruct b.
        -- split; [|easy]. intros _. split; [easy|]. right. exists h, (L mod 256), (L / 256 mod 256).
           repeat split; try easy; lia.
        -- change (2 ^ 16) with 65536. pose proof (magic_le_no_panic 1 0 buf (pos + 1 + N.of_nat 2)).
           destruct (magic_le 1 0 buf (pos + 1 + N.of_nat 2)) as [[u p3]| |]; [| |easy].
           ++ split; [intro X; now apply rd_longbody_no_panic in X|easy].
           ++ split; easy.
    + split; [easy|]. intros [_ [[= ->]|(h' & lo & hi & _ & _ & G1 & G2 & HS)]]; [easy|].
      exfalso. assert (has buf (pos + 1) (le_enc 2 (lo + 256 * hi))) as HH.
      { pose proof (bytes_ok_get _ _ _ Hb G1). pose proof (bytes_ok_get _ _ _ Hb G2).
        cbn [le_enc]. apply has_cons. split; [rewrite G1; f_equal; lia|].
        replace (pos + 1 + 1) with (pos + 2) by lia. apply has_cons. split; [rewrite G2; f_equal; lia|].
        apply has_nil. apply getN_Some_lt in G2. lia. }
      apply rd_le_has in HH; [congruence|]. change (256 ^ N.of_nat 2) with 65536. lia.
    + exfalso. now apply rd_le_no_panic in R.
Qed.

(** ** Construction *)
Lemma is_ascii_false_nonempty s : is_ascii s = false -> s <> [].
Proof. now intros H ->. Qed.

Lemma dstr_new_inv s d : ustr_ok s -> dstr_new s = inl d -> dstr_inv d /\ isrc_no_nul d.
Proof.
  intros HU H. unfold dstr_new in H. change max_shortstr_size with 126 in H.
  destruct (is_ascii s) eqn:A; cbn [andb] in H.
  - destruct (utf8_len s <=? 126) eqn:L.
    + injection H as <-. split; [|intros v [=]]. split; [unfold utf8_len in L; lia|now apply utf8_bytes].
    + destruct (utf8_len s <=? 32767); [|easy]. injection H as <-. split; [|intros v [=]]. now apply utf8_bytes.
  - destruct (utf8_len s <=? 32767); [|easy]. injection H as <-. split; [|intros v [=]]. now apply utf16_units.
Qed.

Lemma dstr_new_into s d : ustr_ok s -> dstr_new s = inl d -> dstr_into_string d = inl s.
Proof.
  intros HU H. unfold dstr_new in H.
  destruct (is_ascii s) eqn:A; cbn [andb] in H.
  - destruct (utf8_len s <=? max_shortstr_size).
    + injection H as <-. cbn [dstr_into_string]. now rewrite utf8_dec_enc.
    + destruct (utf8_len s <=? 32767); [|easy]. injection H as <-. cbn [dstr_into_string]. now rewrite utf8_dec_enc.
  - destruct (utf8_len s <=? 32767); [|easy]. injection H as <-. cbn [dstr_into_string]. now rewrite utf16_dec_enc.
Qed.

Lemma dstr_new_err s : (exists e, dstr_new s = inr e) <-> 32767 < utf8_len s.
Proof.
  unfold dstr_new. change max_shortstr_size with 126. destruct (is_ascii s); cbn [andb].
  - destruct (utf8_len s <=? 126) eqn:L; [split; [now intros [e [=]]|lia]|].
    destruct (utf8_len s <=? 32767) eqn:L2; [split; [now intros [e [=]]|lia]|]. split; [lia|eauto].
  - destruct (utf8_len s <=? 32767) eqn:L2; [split; [now intros [e [=]]|lia]|]. split; [lia|eauto].
Qed.
Lemma dstr_new_err_kind s e : dstr_new s = inr e -> e = TooLong.
Proof.
  unfold dstr_new. destruct (is_ascii s), (utf8_len s <=? max_shortstr_size), (utf8_len s <=? 32767); cbn;
    congruence.
Qed.

(** Which strings that [new] accepts cannot be written with overflow checks on. *)
Lemma dstr_new_writable s d : dstr_new s = inl d ->
  ((exists bs, dstr_enc Debug d = Ok bs) <-> ~ (is_ascii s = false /\ len (utf16_enc s) = 32766)).
Proof.
  intro H. unfold dstr_new in H. change max_shortstr_size with 126 in H. unfold utf8_len in H.
  destruct (is_ascii s) eqn:A; cbn [andb] in H.
  - split; [easy|]. intros _. destruct (len (utf8_enc s) <=? 126) eqn:L; [injection H as <-; now eexists|].
    destruct (len (utf8_enc s) <=? 32767) eqn:L2; [|easy]. injection H as <-.
    unfold dstr_enc, dstr_byte_count. replace (len (utf8_enc s) <? 65536) with true by lia.
    cbn [unwrap res_bind]. rewrite wadd_ok by (change (2 ^ 16) with 65536; lia). now eexists.
  - destruct (len (utf8_enc s) <=? 32767) eqn:L2; [|easy]. injection H as <-.
    pose proof (utf16_lt_utf8 _ A) as LT. unfold dstr_enc, dstr_byte_count.
    replace (len (utf16_enc s) * 2 <? 65536) with true by lia. cbn [unwrap res_bind].
    unfold wadd, ovf. change (2 ^ 16) with 65536. destruct (len (utf16_enc s) * 2 + 4 <? 65536) eqn:E.
    + split; [|now eexists]. intros _ [_ C]. lia.
    + split; [now intros [bs [=]]|]. intro C. exfalso. apply C. split; [easy|lia].
Qed.

Lemma dstr_new_isrc_ok s :
  (exists d, dstr_new_isrc s = inl d) <-> s = [] \/ (length s = 12%nat /\ is_ascii s = true).
Proof.
  unfold dstr_new_isrc. destruct s as [|c s]; [split; [now left|eauto]|]. remember (c :: s) as t.
  destruct (is_ascii t) eqn:A.
  - unfold utf8_len. rewrite utf8_enc_ascii by easy. unfold len. destruct (N.of_nat (length t) =? 12) eqn:E; cbn.
    + split; [|eauto]. intros _. right. split; [lia|easy].
    + split; [now intros [d [=]]|]. intros [->|[L _]]; [easy|]. exfalso. lia.
  - rewrite orb_true_r. split; [now intros [d [=]]|]. intros [->|[_ L]]; easy.
Qed.
Lemma dstr_new_isrc_into s d : dstr_new_isrc s = inl d -> dstr_into_string d = inl s /\ dstr_inv d.
Proof.
  unfold dstr_new_isrc. destruct s as [|c s].
  { intros [= <-]. repeat split; [|constructor]. easy. }
  remember (c :: s) as t. destruct (is_ascii t) eqn:A; [|rewrite orb_true_r; easy].
  destruct (utf8_len t =? 12); [|easy]. cbn. intros [= <-]. rewrite utf8_enc_ascii by easy. split.
  - cbn. now rewrite utf8_dec_ascii.
  - cbn. now apply is_ascii_bytes.
Qed.

(** ** Sizes *)
Lemma dstr_heap_exact b d bs : dstr_inv d -> dstr_enc b d = Ok bs -> len bs < 65536 -> dstr_heap b d = Ok (len bs).
Proof.
  intros HI HE HL. destruct (is_short d) eqn:HS.
  - destruct d as [v| | |]; try easy. cbn [dstr_enc] in HE. injection HE as <-. rewrite len_cons in *.
    destruct HI as [LV _]. cbn [dstr_heap]. rewrite N.mod_small by lia. apply wadd_ok. change (2 ^ 16) with 65536. lia.
  - destruct (enc_long_inv _ _ _ HS HE) as (n & l & HC & Hn & HW & Hl & HB & -> & HLen).
    rewrite HLen in *. assert (dstr_heap b d = wadd b 16 4 n) as ->.
    { destruct d; try easy; unfold dstr_heap; now rewrite HC. }
    rewrite wadd_ok; [f_equal; lia|]. change (2 ^ 16) with 65536. lia.
Qed.
Lemma dstr_enc_debug_bound d bs : dstr_inv d -> dstr_enc Debug d = Ok bs -> len bs < 65536.
Proof.
  intros HI HE. destruct (is_short d) eqn:HS.
  - destruct d as [v| | |]; try easy. cbn [dstr_enc] in HE. injection HE as <-. rewrite len_cons.
    destruct HI as [LV _]. lia.
  - destruct (enc_long_inv _ _ _ HS HE) as (n & l & HC & Hn & HW & Hl & HB & -> & HLen). rewrite HLen.
    unfold wadd, ovf in HW. change (2 ^ 16) with 65536 in HW. destruct (n + 4 <? 65536) eqn:E; [lia|easy].
Qed.
Lemma dstr_enc_nonempty b d bs : dstr_enc b d = Ok bs -> bs <> [].
Proof.
  intro H. destruct d; cbn [dstr_enc] in H; [injection H as <-; easy| | |];
    destruct (unwrap _); try easy; cbn [res_bind] in H; destruct (wadd _ _ _ _); try easy; cbn [res_bind] in H;
    now injection H as <-.
Qed.
Lemma dstr_enc_bytes b d bs : dstr_inv d -> dstr_enc b d = Ok bs -> bytes_ok bs.
Proof.
  intros HI HE. destruct (is_short d) eqn:HS.
  - destruct d as [v| | |]; try easy. cbn [dstr_enc] in HE. injection HE as <-.
    constructor; [apply N.mod_lt; easy|apply HI].
  - destruct (enc_long_inv _ _ _ HS HE) as (n & l & _ & _ & _ & _ & _ & -> & _).
    constructor; [now destruct d|]. apply bytes_ok_app. split; [apply le_enc_ok|]. constructor; [lia|].
    destruct d; cbn [dstr_body].
    + apply HI.
    + constructor; [lia|]. apply bytes_ok_app. split; [apply HI|repeat constructor].
    + apply HI.
    + apply Forall_flat_map. apply Forall_forall. intros. apply le_enc_ok.
Qed.

(** ** The property lemmas *)

(** A Unicode string whose UTF-16 form begins with the ISRC marker byte. *)
Definition starts_like_isrc (s : list N) : Prop :=
  is_ascii s = false /\ exists u us, utf16_enc s = u :: us /\ u mod 256 = 3.

Lemma dstr_write_inv b d buf pos buf' pos' :
  dstr_write b d (buf, pos) = Ok (buf', pos') ->
  exists bs, dstr_enc b d = Ok bs /\ buf' = write_at buf pos bs /\ pos' = pos + len bs /\ has buf' pos bs.
Proof.
  unfold dstr_write. destruct (dstr_enc b d) as [bs| |] eqn:E; [|easy|easy]. cbn [res_bind wr_bytes].
  intros [= <- <-]. exists bs. repeat split. apply has_write_same. now apply dstr_enc_nonempty in E.
Qed.

Lemma dstr_new_write_read b s d buf pos buf' pos' :
  ustr_ok s -> dstr_new s = inl d -> dstr_write b d (buf, pos) = Ok (buf', pos') ->
  (rd_dstr b buf' pos = Ok (d, pos') <->
   ~ (starts_like_isrc s /\ exists i, pos + 5 <= i /\ getN buf' i = Some 0)).
Proof.
  intros HU HN HW. destruct (dstr_new_inv _ _ HU HN) as [HI HZ].
  apply dstr_write_inv in HW as (bs & HE & _ & -> & Hh).
  assert (ambig_at d buf' pos <-> starts_like_isrc s /\ exists i, pos + 5 <= i /\ getN buf' i = Some 0) as HA.
  { unfold dstr_new in HN. destruct (is_ascii s) eqn:A; cbn [andb] in HN.
    - split; [|now intros [[C _] _]; rewrite A in C]. intros ((us & ->) & _).
      destruct (utf8_len s <=? max_shortstr_size), (utf8_len s <=? 32767); easy.
    - destruct (utf8_len s <=? 32767); [|easy]. injection HN as <-.
      destruct (enc_long_inv b (DSUcs2 (utf16_enc s)) bs eq_refl HE) as (n & l & _ & _ & _ & _ & _ & -> & _).
      apply has_cons in Hh as [_ Hh]. apply has_app in Hh as [_ Hh]. rewrite len_le_enc in Hh.
      apply has_cons in Hh as [_ Hh]. cbn [dstr_body] in Hh. simpl N.of_nat in Hh.
      replace (pos + 1 + 2 + 1) with (pos + 4) in Hh by lia.
      destruct (utf16_enc s) as [|u us] eqn:EU.
      { exfalso. destruct s as [|c s]; [easy|]. unfold utf16_enc in EU. cbn [flat_map] in EU.
        unfold utf16_enc1 in EU. destruct (c <? 65536); easy. }
      cbn [flat_map le_enc app] in Hh. apply has_cons in Hh as [G _].
      split.
      + intros (_ & G4 & Z). split; [|easy]. split; [easy|]. exists u, us. split; [easy|]. congruence.
      + intros [[_ (u' & us' & E' & M)] Z]. rewrite EU in E'. injection E' as <- <-.
        split; [eauto|]. split; [|easy]. rewrite G. congruence. }
  rewrite <- HA. split.
  - intros HR AM. destruct (dstr_ambig b d bs buf' pos HI HE Hh AM) as (v & p & HR').
    rewrite HR in HR'. injection HR' as -> _. destruct AM as ((us & [=]) & _).
  - intro AM. now apply dstr_wr.
Qed.

Lemma dstr_read_write_back b buf pos d pos' :
  bytes_ok buf -> len buf < 2 ^ 64 - 1 -> rd_dstr b buf pos = Ok (d, pos') ->
  (dstr_write b d (buf, pos) = Ok (buf, pos') <-> isrc_len_ok b d buf pos).
Proof.
  intros Hb HL HR. destruct (rd_dstr_inv _ _ _ _ _ Hb HL HR) as (HI & HZ & HX). split.
  - intros HW v ->. apply dstr_write_inv in HW as (bs & HE & _ & _ & Hh).
    destruct (enc_long_inv b (DSIsrc v) bs eq_refl HE) as (n & l & HC & Hn & Hw & Hl & _ & -> & _).
    unfold dstr_byte_count in HC. destruct (len v + 2 <? 65536) eqn:E; [|easy]. injection HC as <-.
    apply has_cons in Hh as [_ Hh]. apply has_app in Hh as [Hh _].
    unfold wadd, ovf in Hw. change (2 ^ 16) with 65536 in Hw. destruct (len v + 2 + 4 <? 65536) eqn:E2.
    + injection Hw as <-. replace (len v + 6) with (len v + 2 + 4) by lia. split; [easy|]. lia.
    + destruct b; [easy|]. injection Hw as <-. rewrite le_enc2_mod in Hh.
      replace (len v + 6) with (len v + 2 + 4) by lia. split; [easy|]. right. split; [easy|lia].
  - intro HK. destruct (HX HK) as (bs & HE & Hh & ->). unfold dstr_write. rewrite HE. cbn [res_bind wr_bytes].
    now rewrite write_at_id.
Qed.

Lemma dstr_isrc_write_read b s d buf pos buf' pos' :
  s <> [] -> dstr_new_isrc s = inl d -> dstr_write b d (buf, pos) = Ok (buf', pos') ->
  match rd_dstr b buf' pos with
  | Ok (d', p) => exists t u, s = t ++ u /\ (u = [] \/ hd 1 u = 0) /\ Forall (fun c => c <> 0) t /\
                              d' = DSIsrc t /\ p = pos + 4 + 1 + len t + 1
  | _ => False
  end.
Proof.
  intros HS HN HW. unfold dstr_new_isrc in HN. destruct s as [|c0 s0]; [easy|]. remember (c0 :: s0) as s.
  destruct (is_ascii s) eqn:A; [|rewrite orb_true_r in HN; easy]. destruct (utf8_len s =? 12) eqn:EL; [|easy].
  cbn in HN. injection HN as <-. rewrite utf8_enc_ascii in HW by easy. clear Heqs c0 s0.
  apply dstr_write_inv in HW as (bs & HE & _ & _ & Hh).
  destruct (enc_long_inv b (DSIsrc s) bs eq_refl HE) as (n & l & HC & Hn & Hw & Hl & HB & -> & HLen).
  apply has_cons in Hh as [G0 Hh]. apply has_app in Hh as [H1 Hh]. rewrite len_le_enc in Hh.
  apply has_cons in Hh as [G3 Hh]. cbn [dstr_body] in Hh. apply has_cons in Hh as [G4 Hh]. simpl N.of_nat in *.
  assert (exists t u, s = t ++ u /\ (u = [] \/ hd 1 u = 0) /\ Forall (fun c => c <> 0) t) as (t & u & ES & HU & HT).
  { clear. induction s as [|c s (t & u & -> & HU & HT)]; [exists [], []; repeat split; [now left|constructor]|].
    destruct (N.eq_dec c 0) as [->|NZ].
    - exists [], (0 :: t ++ u). repeat split; [now right|constructor].
    - exists (c :: t), u. repeat split; [easy|now constructor]. }
  assert (has buf' (pos + 5) (t ++ [0])) as Ht.
  { replace (pos + 5) with (pos + 1 + 2 + 1 + 1) by lia. rewrite ES, <- app_assoc in Hh.
    apply has_app in Hh as [Ha Hb']. apply has_app. split; [easy|]. apply has_cons. destruct u as [|c u].
    - cbn [app] in Hb'. apply has_cons in Hb'. easy.
    - destruct HU as [[=]|HU]. cbn [hd] in HU. subst c. cbn [app] in Hb'. apply has_cons in Hb' as [X Y].
      split; [easy|]. apply has_nil. apply has_len in Y. lia. }
  assert (rd_dstr b buf' pos = Ok (DSIsrc t, pos + 5 + len t + 1)) as ->.
  2:{ exists t, u. repeat split; try easy. lia. }
  unfold rd_dstr, orelse.
  assert (rd_dstr_short b buf' pos = Err EAssertFail) as ->.
  { unfold rd_dstr_short. unfold bind at 1. now rewrite (rd_u8_get _ _ _ G0). }
  unfold rd_dstr_long. eapply bind_ok; [apply rd_u8_get; eassumption|]. eapply bind_ok; [reflexivity|].
  eapply bind_ok; [apply rd_le_has; eassumption|]. rewrite HB. eapply bind_ok; [reflexivity|].
  eapply bind_ok. { rewrite magic1_get. simpl N.of_nat. rewrite G3. reflexivity. }
  unfold rd_longbody, orelse. cbn [dstr_flags]. unfold bind at 1. cbn [N.eqb Pos.eqb guard ret].
  unfold bind at 1. rewrite magic1_get, G4. cbn [N.eqb Pos.eqb]. unfold bind at 1.
  replace (pos + 1 + 2 + 1 + 1) with (pos + 5) by lia. now rewrite (rd_nullstring_has _ _ _ HT Ht).
Qed.

Lemma dstr_write_size b d buf pos buf' pos' :
  dstr_inv d -> dstr_write b d (buf, pos) = Ok (buf', pos') -> pos' - pos < 65536 ->
  dstr_heap b d = Ok (pos' - pos).
Proof.
  intros HI HW HL. apply dstr_write_inv in HW as (bs & HE & _ & -> & _).
  replace (pos + len bs - pos) with (len bs) in * by lia. now apply dstr_heap_exact.
Qed.
Lemma dstr_write_size_debug d buf pos buf' pos' :
  dstr_inv d -> dstr_write Debug d (buf, pos) = Ok (buf', pos') -> dstr_heap Debug d = Ok (pos' - pos).
Proof.
  intros HI HW. eapply dstr_write_size; try eassumption.
  apply dstr_write_inv in HW as (bs & HE & _ & -> & _). apply dstr_enc_debug_bound in HE; [lia|easy].
Qed.
Lemma dstr_inv_established :
  (forall s d, ustr_ok s -> dstr_new s = inl d -> dstr_inv d) /\
  (forall s d, dstr_new_isrc s = inl d -> dstr_inv d) /\
  dstr_inv dstr_empty /\
  (forall b buf pos d pos', bytes_ok buf -> len buf < 2 ^ 64 - 1 -> rd_dstr b buf pos = Ok (d, pos') -> dstr_inv d).
Proof.
  repeat split.
  - intros. now apply (dstr_new_inv s).
  - intros. now apply (dstr_new_isrc_into s).
  - easy.
  - constructor.
  - intros. now apply (rd_dstr_inv b buf pos d pos').
Qed.

Lemma dstr_heap_release_wraps : exists s d bs,
  dstr_new s = inl d /\ dstr_enc Release d = Ok bs /\ len bs = 65536 /\ dstr_heap Release d = Ok 0.
Proof.
  assert (forall s, match dstr_new s with
                    | inl d => match dstr_enc Release d, dstr_heap Release d with
                               | Ok bs, Ok h => (len bs =? 65536) && (h =? 0) | _, _ => false end
                    | inr _ => false end = true ->
          exists d bs, dstr_new s = inl d /\ dstr_enc Release d = Ok bs /\ len bs = 65536 /\
                       dstr_heap Release d = Ok 0) as H.
  { intros s. destruct (dstr_new s) as [d|]; [|easy]. destruct (dstr_enc Release d) as [bs| |] eqn:EE; [|easy|easy].
    destruct (dstr_heap Release d) as [h| |] eqn:E; [|easy|easy]. intro C. apply andb_true_iff in C as [C1 C2].
    apply N.eqb_eq in C1, C2. subst h. exists d, bs. auto. }
  exists (repeat 97 (N.to_nat 32765) ++ [228]). apply H. vm_compute. reflexivity.
Qed.
