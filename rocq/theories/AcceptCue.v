(** * Which extended cues are accepted, and where they end

    Facts about the readers of src/anlz.rs (modelled in [Anlz.v]); no further code of /repo is modelled here. *)
From Coq Require Import NArith ZArith List Bool String Lia.
From Coq Require Import ZifyBool ZifyNat ZifyN.
From Verif Require Import Base BaseFacts Utf UtfFacts Schema SchemaFacts Xor Anlz AnlzFacts AnlzSections AnlzPanic Layout LayoutAnlz Accept AcceptAll.
Import ListNotations.
Open Scope N_scope.

(** ** Spec *)
Definition high (u : N) : Prop := 0xD800 <= u < 0xDC00.
Definition low (u : N) : Prop := 0xDC00 <= u < 0xE000.
(** Each high surrogate is followed by a low one, and each low one is preceded by a high one. *)
Definition paired (us : list N) : Prop := forall i u, getN us i = Some u ->
  (high u -> exists v, getN us (i + 1) = Some v /\ low v) /\ (low u -> 0 < i /\ exists v, getN us (i - 1) = Some v /\ high v).
(** Without zeros at their end there are [n] units. *)
Definition units_text (us : list N) (n : N) : Prop := n <= len us /\ (n = 0 \/ exists x, getN us (n - 1) = Some x /\ x <> 0) /\ forall i x, n <= i -> getN us i = Some x -> x = 0.
(** [n] units, most significant byte first. *)
Definition units_in (buf : list N) (pos n : N) (us : list N) : Prop := len us = n /\ forall i u, getN us i = Some u -> number_be buf (pos + 2 * i) 2 = Some u.
(** An extended cue from [pos] to [fin]: known codes, and a comment with no lone surrogates.  The bytes that follow are as many as the total size leaves, if the comment takes the size that
    is computed from its text, with one zero unit, rather than its stored size. *)
Definition text_size (n : N) : N := if n =? 0 then 0 else 2 * n + 2.
Definition extended_entry (buf : list N) (pos fin : N) : Prop := exists t c us n,
  number_be buf (pos + 8) 4 = Some t /\ number_be buf (pos + 40) 4 = Some c /\ (getN buf (pos + 16) = Some 1 \/ getN buf (pos + 16) = Some 2) /\ (exists x, getN buf (pos + 28) = Some x /\ x <= 8) /\
  units_in buf (pos + 44) (c / 2) us /\ paired us /\ units_text us n /\ fin = pos + 68 + c + (t - (68 + text_size n)) /\ fin <= len buf.
Fixpoint extended_entries (n : nat) (buf : list N) (pos fin : N) : Prop :=
  match n with O => fin = pos | S n' => exists m, extended_entry buf pos m /\ extended_entries n' buf m fin end.

(** ** Surrogates *)
Lemma high_range u : in_range 0xD800 0xDBFF u = true <-> high u. Proof. unfold in_range, high. lia. Qed.
Lemma low_range u : in_range 0xDC00 0xDFFF u = true <-> low u. Proof. unfold in_range, low. lia. Qed.
Lemma high_low u : high u -> low u -> False. Proof. unfold high, low. lia. Qed.
Lemma paired_plain u us : ~ high u -> ~ low u -> (paired (u :: us) <-> paired us).
Proof.
  intros NH NL. split; intros H i x HX.
  - destruct (H (i + 1) x) as [H1 H2]; [rewrite getN_cons; replace (i + 1 =? 0) with false by lia; now replace (i + 1 - 1) with i by lia|]. split.
    + intro HH. destruct (H1 HH) as (v & V & L). exists v. split; [|exact L]. rewrite getN_cons in V. replace (i + 1 + 1 =? 0) with false in V by lia. now replace (i + 1 + 1 - 1) with (i + 1) in V by lia.
    + intro HL. destruct (H2 HL) as (_ & v & V & L). rewrite getN_cons in V. replace (i + 1 - 1) with i in V by lia. destruct (i =? 0) eqn:E; [injection V as <-; contradiction|]. split; [lia|]. now exists v.
  - rewrite getN_cons in HX. destruct (i =? 0) eqn:E; [injection HX as <-; split; [intro; contradiction|intro; contradiction]|]. destruct (H (i - 1) x HX) as [H1 H2]. split.
    + intro HH. destruct (H1 HH) as (v & V & L). exists v. split; [|exact L]. rewrite getN_cons. replace (i + 1 =? 0) with false by lia. replace (i - 1 + 1) with (i + 1 - 1) in V by lia. exact V.
    + intro HL. destruct (H2 HL) as (P & v & V & L). split; [lia|]. exists v. split; [|exact L]. rewrite getN_cons. now replace (i - 1 =? 0) with false by lia.
Qed.
Lemma paired_pair u v us : high u -> low v -> (paired (u :: v :: us) <-> paired us).
Proof.
  intros HU HV. split; intros H i x HX.
  - destruct (H (i + 2) x) as [H1 H2]; [rewrite !getN_cons; replace (i + 2 =? 0) with false by lia; replace (i + 2 - 1 =? 0) with false by lia; now replace (i + 2 - 1 - 1) with i by lia|]. split.
    + intro HH. destruct (H1 HH) as (w & W & L). exists w. split; [|exact L]. rewrite !getN_cons in W. replace (i + 2 + 1 =? 0) with false in W by lia. replace (i + 2 + 1 - 1 =? 0) with false in W by lia. now replace (i + 2 + 1 - 1 - 1) with (i + 1) in W by lia.
    + intro HL. destruct (H2 HL) as (_ & w & W & L). rewrite !getN_cons in W. replace (i + 2 - 1 =? 0) with false in W by lia. replace (i + 2 - 1 - 1) with i in W by lia. destruct (i =? 0) eqn:E; [injection W as <-; destruct (high_low _ L HV)|]. split; [lia|]. now exists w.
  - rewrite !getN_cons in HX. destruct (i =? 0) eqn:E.
    + injection HX as <-. assert (i = 0) as -> by lia. split; [intros _; now exists v|]. intro HL. destruct (high_low _ HU HL).
    + destruct (i - 1 =? 0) eqn:E1.
      * injection HX as <-. assert (i = 1) as -> by lia. split; [intro HH; destruct (high_low _ HH HV)|]. intros _. split; [lia|]. now exists u.
      * destruct (H (i - 1 - 1) x HX) as [H1 H2]. split.
        -- intro HH. destruct (H1 HH) as (w & W & L). exists w. split; [|exact L]. rewrite !getN_cons. replace (i + 1 =? 0) with false by lia. replace (i + 1 - 1 =? 0) with false by lia. now replace (i + 1 - 1 - 1) with (i - 1 - 1 + 1) by lia.
        -- intro HL. destruct (H2 HL) as (P & w & W & L). split; [lia|]. exists w. split; [|exact L]. rewrite !getN_cons. replace (i - 1 =? 0) with false by lia. now replace (i - 1 - 1 =? 0) with false by lia.
Qed.
Lemma dec_paired us : (exists s, utf16_dec us = Some s) <-> paired us.
Proof.
  assert (exists n, (List.length us <= n)%nat) as (n & HN) by eauto. revert us HN. induction n as [|n IH]; intros [|u us] HN; cbn [List.length] in HN; try lia.
  - split; [intros _ i x HX; apply getN_Some_lt in HX; cbn in HX; lia|]. intros _. now exists [].
  - split; [intros _ i x HX; apply getN_Some_lt in HX; cbn in HX; lia|]. intros _. now exists [].
  - cbn [utf16_dec]. destruct (in_range 0xD800 0xDBFF u) eqn:EH.
    + apply high_range in EH. destruct us as [|v us].
      * split; [intros [s H]; discriminate|]. intro H. destruct (H 0 u eq_refl) as [H1 _]. destruct (H1 EH) as (v & V & _). apply getN_Some_lt in V. cbn in V. lia.
      * destruct (in_range 0xDC00 0xDFFF v) eqn:EL.
        -- apply low_range in EL. rewrite (paired_pair u v us EH EL), <- IH by (cbn in HN; lia). destruct (utf16_dec us) as [s|]; cbn [option_map]; split; intros [x H]; try discriminate; eauto.
        -- split; [intros [s H]; discriminate|]. intro H. destruct (H 0 u eq_refl) as [H1 _]. destruct (H1 EH) as (w & W & L). cbn in W. injection W as <-. apply low_range in L. congruence.
    + assert (~ high u) as NH by (intro X; apply high_range in X; congruence). destruct (in_range 0xDC00 0xDFFF u) eqn:EL.
      * apply low_range in EL. split; [intros [s H]; discriminate|]. intro H. destruct (H 0 u eq_refl) as [_ H1]. destruct (H1 EL). lia.
      * assert (~ low u) as NL by (intro X; apply low_range in X; congruence). rewrite (paired_plain u us NH NL), <- IH by lia. destruct (utf16_dec us) as [s|]; cbn [option_map]; split; intros [x H]; try discriminate; eauto.
Qed.
(** ** Comments *)
Lemma units_text_unique us n m : units_text us n -> units_text us m -> n = m.
Proof.
  assert (forall n m, units_text us n -> units_text us m -> n <= m) as H. { intros a c (A1 & A2 & A3) (C1 & C2 & C3). destruct (N.le_gt_cases a c) as [L|L]; [exact L|]. destruct A2 as [->|(x & X & NZ)]; [lia|]. destruct NZ. apply (C3 (a - 1)); [lia|exact X]. }
  intros H1 H2. apply N.le_antisymm; now apply H.
Qed.
Lemma units_unique buf q k us vs : units_in buf q k us -> units_in buf q k vs -> us = vs.
Proof.
  intros [L1 H1] [L2 H2]. apply list_ext. intro i. destruct (getN us i) as [u|] eqn:EU; destruct (getN vs i) as [v|] eqn:EV; [| | |reflexivity].
  - specialize (H1 i u EU). specialize (H2 i v EV). congruence.
  - apply getN_Some_lt in EU. rewrite L1, <- L2 in EU. apply getN_lt_Some in EU as [y Y]. congruence.
  - apply getN_Some_lt in EV. rewrite L2, <- L1 in EV. apply getN_lt_Some in EV as [y Y]. congruence.
Qed.
Lemma enc_last s : ~ ends_nul s -> s <> [] -> exists r x, utf16_enc s = r ++ [x] /\ x <> 0.
Proof.
  intros HN HS. destruct (exists_last HS) as (r & c & ->). rewrite utf16_enc_app. assert (c <> 0) as HC by (intros ->; apply HN; now exists r). unfold utf16_enc at 2. cbn [flat_map]. unfold utf16_enc1. rewrite app_nil_r. destruct (c <? 0x10000); [now exists (utf16_enc r), c|].
  eexists (utf16_enc r ++ [_]), _. split; [rewrite <- app_assoc; reflexivity|]. lia.
Qed.
Lemma trim_text us s : Forall (fun u => u < 65536) us -> utf16_dec us = Some s -> units_text us (len (utf16_enc (trim_end0 s))).
Proof.
  intros HU HD. apply utf16_enc_dec in HD as [E _]; [|exact HU]. destruct (trim_end0_zeros s) as [z Z]. rewrite Z, utf16_enc_app in E. assert (utf16_enc (repeat 0 z) = repeat 0 z) as EZ by (clear; unfold utf16_enc; induction z as [|z IH]; [reflexivity|]; cbn [repeat flat_map]; rewrite IH; reflexivity). rewrite EZ in E.
  set (w := utf16_enc (trim_end0 s)) in *. rewrite <- E. split; [rewrite len_app; lia|]. split.
  - destruct (trim_end0 s) as [|c r] eqn:ET; [now left|]. right. destruct (enc_last (c :: r)) as (r' & x & W & NZ); [rewrite <- ET; apply trim_end0_not|discriminate|]. exists x. split; [|exact NZ]. subst w. rewrite W. rewrite <- app_assoc, getN_app, len_app. change (len [x]) with 1.
    replace (len r' + 1 - 1) with (len r') by lia. rewrite N.ltb_irrefl, N.sub_diag. reflexivity.
  - intros i x L HX. rewrite getN_app in HX. replace (i <? len w) with false in HX by lia. unfold getN in HX. apply nth_error_In in HX. now apply repeat_spec in HX.
Qed.
Lemma trim_empty s : len (utf16_enc s) = 0 <-> s = [].
Proof. split; [|now intros ->]. destruct s as [|c s]; [reflexivity|]. unfold utf16_enc. cbn [flat_map]. rewrite len_app. unfold utf16_enc1. destruct (c <? 0x10000); rewrite !len_cons; lia. Qed.
Lemma text_size_ok b s : len (utf16_enc s) < 2 ^ 31 - 2 -> byte_len b s = Ok (text_size (len (utf16_enc s))).
Proof.
  intro L. pose proof (trim_empty s) as TE. unfold byte_len, text_size. destruct s as [|c s]; [reflexivity|]. replace (len (utf16_enc (c :: s)) =? 0) with false by (destruct (N.eqb_spec (len (utf16_enc (c :: s))) 0) as [E|]; [apply TE in E; discriminate|reflexivity]).
  rewrite N.mod_small by lia. unfold wadd, wmul. replace (len (utf16_enc (c :: s)) + 1 <? 2 ^ 32) with true by lia. cbn [res_bind]. replace ((len (utf16_enc (c :: s)) + 1) * 2 <? 2 ^ 32) with true by lia. f_equal. lia.
Qed.
Lemma has_bytes (buf : list N) pos bs : bytes_ok buf -> has buf pos bs -> bytes_ok bs.
Proof. intros HB (u & v & -> & _). unfold bytes_ok in *. apply Forall_app in HB as [_ HB]. now apply Forall_app in HB as [HB _]. Qed.
Lemma comment_exact buf pos s p : bytes_ok buf -> rd_comment buf pos = Ok (s, p) ->
  exists c us, number_be buf pos 4 = Some c /\ units_in buf (pos + 4) (c / 2) us /\ paired us /\ units_text us (len (utf16_enc s)) /\ p = pos + 4 + c /\ p <= len buf.
Proof.
  intros HB H. unfold rd_comment in H. apply bind_inv in H as (c & p1 & R & H). apply rd_be_at in R as (R & -> & HL); [|discriminate]. change (N.of_nat 4) with 4 in *. exists c. destruct (c =? 0) eqn:E.
  - apply N.eqb_eq in E as ->. apply ret_inv in H as [<- <-]. exists []. split; [exact R|]. split; [split; [reflexivity|]; intros i u HU; apply getN_Some_lt in HU; cbn in HU; lia|]. split; [now apply dec_paired; exists []|]. split; [|split; [lia|exact HL]].
    split; [cbn; lia|]. split; [now left|]. intros i x _ HU. apply getN_Some_lt in HU. cbn in HU. lia.
  - apply bind_inv in H as (bs & p2 & R2 & H). apply rd_bytes_at in R2 as (R2 & L & -> & HE); [|exact HL]. destruct (utf16_dec (be_units bs)) as [s'|] eqn:D; [|discriminate]. apply ret_inv in H as [<- <-]. exists (be_units bs). split; [exact R|].
    split; [split; [now rewrite len_be_units, L|]; intros i u; now apply units_at|]. split; [apply dec_paired; now exists s'|]. split; [|now split]. apply trim_text; [|exact D]. apply be_units_u16. now apply (has_bytes buf (pos + 4)).
Qed.
Lemma comment_total buf pos c us : number_be buf pos 4 = Some c -> units_in buf (pos + 4) (c / 2) us -> paired us -> pos + 4 + c <= len buf -> exists s, rd_comment buf pos = Ok (s, pos + 4 + c).
Proof.
  intros R HU HP HL. unfold rd_comment, bind. rewrite (rd_be_at_total 4 buf pos c ltac:(discriminate) ltac:(lia) R). change (N.of_nat 4) with 4. destruct (c =? 0) eqn:E; [exists []; unfold ret; do 2 f_equal; lia|].
  destruct (rd_bytes_ok c buf (pos + 4) HL) as [bs BS]. rewrite BS. apply rd_bytes_at in BS as (HH & L & _); [|lia]. assert (us = be_units bs) as -> by (apply (units_unique buf (pos + 4) (c / 2)); [exact HU|]; split; [now rewrite len_be_units, L|]; intros i u; now apply units_at).
  apply dec_paired in HP as [s S]. rewrite S. unfold ret. now eexists.
Qed.
(** ** Extended cues *)
Lemma extended_accepts b buf pos fin : bytes_ok buf -> len buf < 2 ^ 31 -> ((exists e, rd_ecue b buf pos = Ok (e, fin)) <-> extended_entry buf pos fin).
Proof.
  intros HB H31. assert (forall us c n q, units_in buf q (c / 2) us -> units_text us n -> q + c <= len buf -> 2 * n <= c) as HN by (intros us c n q [L _] [L2 _] _; lia). split.
  - intros (e & H). destruct (ecue_codes _ _ _ _ _ HB H) as [K1 K2]. unfold rd_ecue in H. apply bind_inv in H as (h & p1 & R1 & H). apply bind_inv in H as (vs & p2 & R2 & H).
    apply bind_inv in H as (s & p3 & R3 & H). apply bind_inv in H as (ws & p4 & R4 & H). apply bind_inv in H as (n & p5 & R5 & H). apply bind_inv in H as (tr & p6 & R6 & H). apply ret_inv in H as [_ <-].
    apply header_read in R1 as ((_ & _ & R1) & -> & HL1); [|exact HB]. apply plain_end in R2 as [-> HL2]; [|reflexivity|reflexivity|exact HL1]. change (fields_size ecue_fields) with 28 in *. replace (pos + 12 + 28) with (pos + 40) in * by lia.
    apply comment_exact in R3 as (c & us & C & U & P & T & -> & HL3); [|exact HB]. replace (pos + 40 + 4) with (pos + 44) in * by lia. apply plain_end in R4 as [-> HL4]; [|reflexivity|reflexivity|exact HL3]. change (fields_size ecue_more_fields) with 24 in *. apply lift_eq in R5 as [R5 <-].
    pose proof (HN us c _ _ U T HL3) as LN. unfold trailing_size in R5. rewrite text_size_ok in R5 by lia. cbn [res_bind] in R5. assert (text_size (len (utf16_enc s)) <= c + 2) as LT by (unfold text_size; destruct (_ =? 0); lia).
    unfold wadd in R5. replace (68 + text_size (len (utf16_enc s)) <? 2 ^ 32) with true in R5 by lia. cbn [res_bind] in R5. assert (n = h_total h - (68 + text_size (len (utf16_enc s)))) as -> by congruence. clear R5. apply rd_bytes_at in R6 as (_ & _ & -> & HL6); [|exact HL4].
    exists (h_total h), c, us, (len (utf16_enc s)). split; [exact R1|]. split; [exact C|]. split; [exact K1|]. split; [exact K2|]. split; [exact U|]. split; [exact P|]. split; [exact T|]. split; [lia|exact HL6].
  - intros (t & c & us & n & HT & C & K1 & K2 & U & P & T & -> & HL). destruct (proj2 (header_accepts buf pos)) as [h H1]; [lia|]. pose proof (header_read _ _ _ _ HB H1) as ((_ & _ & HT') & _). rewrite HT in HT'. injection HT' as ->.
    destruct (proj2 (plain_accepts buf ecue_fields (pos + 12) eq_refl eq_refl ltac:(lia))) as (vs & p & H2).
    { change (fields_size ecue_fields) with 28. split; [lia|]. apply known_ecue. replace (pos + 12 + 4) with (pos + 16) by lia; replace (pos + 12 + 16) with (pos + 28) by lia. now split. }
    pose proof H2 as H2'. apply plain_end in H2' as [-> _]; [|reflexivity|reflexivity|lia]. change (fields_size ecue_fields) with 28 in *. replace (pos + 12 + 28) with (pos + 40) in * by lia.
    destruct (comment_total buf (pos + 40) c us C) as [s H3]; [now replace (pos + 40 + 4) with (pos + 44) by lia|exact P|lia|]. replace (pos + 40 + 4) with (pos + 44) in H3 by lia.
    pose proof (comment_exact _ _ _ _ HB H3) as (c' & us' & C' & U' & _ & T' & _ & HL3). replace (pos + 40 + 4) with (pos + 44) in * by lia. assert (c' = c) as -> by congruence. assert (us' = us) as -> by (now apply (units_unique buf (pos + 44) (c / 2))). assert (len (utf16_enc s) = n) as EN by (now apply (units_text_unique us)).
    destruct (proj2 (plain_accepts buf ecue_more_fields (pos + 44 + c) eq_refl eq_refl ltac:(lia))) as (ws & q & H4); [change (fields_size ecue_more_fields) with 24; split; [lia|exact I]|].
    pose proof H4 as H4'. apply plain_end in H4' as [-> _]; [|reflexivity|reflexivity|lia]. change (fields_size ecue_more_fields) with 24 in *.
    pose proof (HN us c n _ U T HL3) as LN. assert (text_size n <= c + 2) as LT by (unfold text_size; destruct (_ =? 0); lia).
    assert (trailing_size b h s = Ok (h_total h - (68 + text_size n))) as H5. { unfold trailing_size. rewrite text_size_ok by lia. rewrite EN. cbn [res_bind]. unfold wadd. now replace (68 + text_size n <? 2 ^ 32) with true by lia. }
    destruct (rd_bytes_ok (h_total h - (68 + text_size n)) buf (pos + 44 + c + 24)) as [tr H6]; [lia|]. unfold rd_ecue, bind. rewrite H1, H2, H3, H4. unfold lift. rewrite H5, H6. unfold ret. eexists. do 2 f_equal. lia.
Qed.
Lemma entries_accept b buf : bytes_ok buf -> len buf < 2 ^ 31 -> forall n pos fin, (exists l, rd_count n (rd_ecue b) buf pos = Ok (l, fin)) <-> extended_entries n buf pos fin.
Proof.
  intros HB H31. induction n as [|n IH]; intros pos fin; cbn [rd_count extended_entries].
  - unfold ret. split; [intros [l H]; congruence|]. intros ->. now exists [].
  - split.
    + intros [l H]. apply bind_inv in H as (e & m & R & H). apply bind_inv in H as (r & m2 & R2 & H). apply ret_inv in H as [_ <-]. exists m. split; [apply (extended_accepts b); [exact HB|exact H31|now exists e]|]. apply IH. now exists r.
    + intros (m & HE & HR). apply (extended_accepts b buf pos m HB H31) in HE as [e E]. apply IH in HR as [l R]. unfold bind. rewrite E, R. unfold ret. now eexists.
Qed.
Lemma extended_list_accepts b buf pos fin n : bytes_ok buf -> len buf < 2 ^ 31 -> has buf pos (letters "PCO2") -> number_be buf (pos + 16) 2 = Some n ->
  ((exists c, rd_section b buf pos = Ok (c, fin)) <-> (number_be buf (pos + 12) 4 = Some 0 \/ number_be buf (pos + 12) 4 = Some 1) /\ number_be buf (pos + 18) 2 = Some 0 /\ extended_entries (N.to_nat n) buf (pos + 20) fin).
Proof.
  intros HB H31 HK HN. pose proof (number_be_len buf 2 _ _ ltac:(discriminate) HN) as LN. change (N.of_nat 2) with 2 in LN. destruct (proj2 (header_accepts buf pos)) as [h H1]; [lia|].
  pose proof (kind_is buf pos "PCO2" KExtendedCueList h _ HB ltac:(cbn; auto 20) HK H1) as K. unfold rd_section, bind. rewrite H1. unfold rd_content. rewrite K. unfold rd_ecue_list. split.
  - intros [c H]. match type of H with match ?x with _ => _ end = _ => destruct x as [[d p]| |] eqn:E; try discriminate end. unfold ret in H. assert (p = fin) as -> by congruence. clear H.
    apply bind_inv in E as (ty & p1 & R1 & E). apply rd_cue_list_type in R1 as (-> & _ & TY). apply bind_inv in E as (n' & p2 & R2 & E). apply rd_be_at in R2 as (R2 & -> & _); [|discriminate]. apply bind_inv in E as (u & p3 & R3 & E). apply rd_be_at in R3 as (R3 & -> & _); [|discriminate].
    apply bind_inv in E as (z & p4 & G & E). apply guard_inv in G as [G <-]. apply N.eqb_eq in G as ->. apply bind_inv in E as (l & p5 & R & E). apply ret_inv in E as [_ <-]. change (N.of_nat 2) with 2 in *. replace (pos + 12 + 4) with (pos + 16) in * by lia. replace (pos + 16 + 2) with (pos + 18) in * by lia. replace (pos + 18 + 2) with (pos + 20) in * by lia.
    assert (n' = n) as -> by congruence. split; [exact TY|]. split; [exact R3|]. apply (entries_accept b); [exact HB|exact H31|]. now exists l.
  - intros (TY & U & HE). pose proof (number_be_len buf 2 _ _ ltac:(discriminate) U) as LU. change (N.of_nat 2) with 2 in LU. apply (entries_accept b buf HB H31) in HE as [l R].
    assert (exists ty, rd_field (fail EIo) cue_list_type buf (pos + 12) = Ok (ty, pos + 16)) as [ty T].
    { unfold cue_list_type. cbn [rd_field rd_int]. unfold bind. destruct TY as [T|T]; rewrite (rd_be_at_total 4 buf (pos + 12) _ ltac:(discriminate) ltac:(lia) T); replace (pos + 12 + N.of_nat 4) with (pos + 16) by lia; cbn; unfold ret; now eexists. }
    unfold bind. rewrite T. rewrite (rd_be_at_total 2 buf (pos + 16) n ltac:(discriminate) ltac:(lia) HN). replace (pos + 16 + N.of_nat 2) with (pos + 18) by lia. rewrite (rd_be_at_total 2 buf (pos + 18) 0 ltac:(discriminate) ltac:(lia) U). replace (pos + 18 + N.of_nat 2) with (pos + 20) by lia.
    cbn [N.eqb]. unfold guard, ret. rewrite R. now eexists.
Qed.
