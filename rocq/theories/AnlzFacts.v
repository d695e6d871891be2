(** * Facts about analysis files: reading back what was written, and writing back what was read *)
From Coq Require Import NArith ZArith List Bool Lia.
From Coq Require Import ZifyBool ZifyNat ZifyN.
From Verif Require Import Base BaseFacts Utf UtfFacts Str Schema SchemaFacts Xor XorFacts Anlz.
Import ListNotations.
Open Scope N_scope.
Ltac Zify.zify_post_hook ::= Z.div_mod_to_equations.

Definition no_dstr (d : dstr) : Prop := False.
Definition plain_ok (fs : list field) (vs : list fval) : Prop := fields_ok no_dstr fs vs.

(** ** Lists of entries *)
Lemma rd_count_res_has {A} (enc : A -> res (list N)) (dec : parser A) (P : A -> Prop) buf :
  (forall v pos bs, P v -> enc v = Ok bs -> has buf pos bs -> dec buf pos = Ok (v, pos + len bs)) ->
  forall l pos bs, Forall P l -> enc_all enc l = Ok bs -> has buf pos bs ->
    rd_count (length l) dec buf pos = Ok (l, pos + len bs).
Proof.
  intro H. induction l as [|v l IH]; intros pos bs HP HE HH; cbn [length rd_count enc_all] in *.
  - injection HE as <-. now rewrite (@len_nil N), N.add_0_r.
  - inversion HP as [|? ? PV PL]; subst. destruct (enc v) as [a| |] eqn:EA; [|easy|easy]. destruct (enc_all enc l) as [b| |] eqn:EB; [|easy|easy].
    injection HE as <-. apply has_app in HH as [H1 H2]. unfold bind. rewrite (H v pos a) by easy.
    rewrite (IH (pos + len a) b) by easy. unfold ret. rewrite len_app. do 2 f_equal. lia.
Qed.
Lemma rd_count_res_inv {A} (enc : A -> res (list N)) (dec : parser A) (P : A -> Prop) buf :
  (forall v pos pos', pos <= len buf -> dec buf pos = Ok (v, pos') -> P v /\ exists bs, enc v = Ok bs /\ has buf pos bs /\ pos' = pos + len bs) ->
  forall n l pos pos', pos <= len buf -> rd_count n dec buf pos = Ok (l, pos') ->
    length l = n /\ Forall P l /\ exists bs, enc_all enc l = Ok bs /\ has buf pos bs /\ pos' = pos + len bs.
Proof.
  intro H. induction n as [|n IH]; intros l pos pos' HP HR; cbn [rd_count] in HR.
  - apply ret_inv in HR as [<- <-]. split; [easy|]. split; [constructor|]. exists []. split; [easy|]. split; [now apply has_nil|].
    now rewrite (@len_nil N), N.add_0_r.
  - apply bind_inv in HR as (v & p1 & H1 & HR). apply bind_inv in HR as (r & p2 & H2 & HR). apply ret_inv in HR as [<- <-].
    apply H in H1 as (PV & a & EA & HA & ->); [|easy]. pose proof (has_len _ _ _ HA) as LA.
    apply IH in H2 as (LR & PR & b & EB & HB & ->); [|lia].
    split; [cbn; now rewrite LR|]. split; [now constructor|]. exists (a ++ b). cbn [enc_all]. rewrite EA, EB. split; [easy|].
    split; [now apply has_app|]. rewrite len_app. lia.
Qed.
Lemma rd_count_length {A} (dec : parser A) buf : forall n l pos pos', rd_count n dec buf pos = Ok (l, pos') -> length l = n.
Proof.
  induction n as [|n IH]; intros l pos pos' HR; cbn [rd_count] in HR.
  - apply ret_inv in HR as [<- <-]. easy.
  - apply bind_inv in HR as (v & p1 & H1 & HR). apply bind_inv in HR as (r & p2 & H2 & HR). apply ret_inv in HR as [<- <-].
    cbn. f_equal. eapply IH. exact H2.
Qed.
Lemma enc_all_inv {A} (enc : A -> res (list N)) (n : N) : forall l bs,
  (forall v a, In v l -> enc v = Ok a -> len a = n) -> enc_all enc l = Ok bs -> len bs = n * len l.
Proof.
  induction l as [|v l IH]; intros bs HN HE; cbn [enc_all] in HE.
  - injection HE as <-. rewrite (@len_nil N), (@len_nil A). lia.
  - destruct (enc v) as [a| |] eqn:EA; [|easy|easy]. destruct (enc_all enc l) as [b| |] eqn:EB; [|easy|easy]. injection HE as <-.
    rewrite len_app, len_cons. rewrite (HN v a) by (easy || now left). rewrite (IH b); [lia| |easy]. intros w c HW. apply HN. now right.
Qed.
Lemma enc_all_total {A} (enc : A -> res (list N)) (P : A -> Prop) : forall l,
  (forall v, P v -> exists a, enc v = Ok a) -> Forall P l -> exists bs, enc_all enc l = Ok bs.
Proof.
  intros l H HP. induction HP as [|v l HV HP IH]; [now exists []|]. destruct (H v HV) as (a & EA). destruct IH as (b & EB).
  exists (a ++ b). cbn. now rewrite EA, EB.
Qed.

(** ** Plain structs *)
Lemma plain_str_wr b buf : str_wr b (fail EIo) no_dstr buf.
Proof. intros d pos bs H. destruct H. Qed.
Lemma plain_str_rw b buf : str_rw b (fail EIo) no_dstr buf.
Proof. intros d pos pos' H. discriminate. Qed.
Lemma plain_wr b fs vs buf pos bs :
  fields_wfb fs = true -> plain_ok fs vs -> enc_fields b fs vs = Ok bs -> has buf pos bs -> rd_plain fs buf pos = Ok (vs, pos + len bs).
Proof. intros. eapply fields_wr; try eassumption. apply plain_str_wr. Qed.
Lemma plain_rw b fs vs buf pos pos' :
  fields_wfb fs = true -> bytes_ok buf -> pos <= len buf -> rd_plain fs buf pos = Ok (vs, pos') ->
  plain_ok fs vs /\ exists bs, enc_fields b fs vs = Ok bs /\ has buf pos bs /\ pos' = pos + len bs.
Proof. intros. eapply fields_rw; try eassumption. apply plain_str_rw. Qed.
Lemma plain_size b fs vs :
  no_str fs = true -> plain_ok fs vs -> exists bs, enc_fields b fs vs = Ok bs /\ len bs = fields_size fs.
Proof. apply fields_enc_size. Qed.

(** ** Headers *)
Lemma ckind_of_spec c :
  match ckind_of c with
  | KUnknown c' => c' = c /\ ~ In c (map ckind_code ckinds)
  | k => In k ckinds /\ ckind_code k = c
  end.
Proof.
  unfold ckind_of. destruct (find _ ckinds) as [k|] eqn:E.
  - apply find_some in E as [H1 H2]. assert (ckind_code k = c) as H3 by lia. clear H2.
    cbn in H1. repeat (destruct H1 as [<-|H1]; [cbn; intuition congruence|]). destruct H1.
  - split; [easy|]. intro HI. apply in_map_iff in HI as (k & HK & HI). pose proof (find_none _ _ E k HI) as H. cbv beta in H. lia.
Qed.
(** A kind that the reader returns: an unknown kind does not have the code of a known one. *)
Definition ckind_ok (k : ckind) : Prop :=
  match k with KUnknown c => c < 2 ^ 32 /\ ~ In c (map ckind_code ckinds) | _ => True end.
Definition header_ok (h : header) : Prop := ckind_ok (h_kind h) /\ h_size h < 2 ^ 32 /\ h_total h < 2 ^ 32.
Lemma ckind_of_code k : ckind_ok k -> ckind_of (ckind_code k) = k.
Proof.
  destruct k; try reflexivity. cbn [ckind_code ckind_ok]. intros [_ H]. pose proof (ckind_of_spec c) as HS.
  destruct (ckind_of c) eqn:E; 
    try (exfalso; apply H; rewrite <- (proj2 HS); apply in_map; exact (proj1 HS)). now destruct HS as [-> _].
Qed.
Lemma ckind_code_of c : ckind_code (ckind_of c) = c.
Proof. pose proof (ckind_of_spec c) as H. destruct (ckind_of c); try apply H. Qed.
Lemma ckind_code_u32 k : ckind_ok k -> ckind_code k < 256 ^ 4.
Proof. destruct k; try reflexivity. cbn. now intros [H _]. Qed.
Lemma ckind_of_ok c : c < 2 ^ 32 -> ckind_ok (ckind_of c).
Proof.
  intro HC. pose proof (ckind_of_spec c) as H. unfold ckind_ok. destruct (ckind_of c); try easy. destruct H as [-> H]. easy.
Qed.
Lemma len_enc_header h : len (enc_header h) = 12.
Proof. unfold enc_header. now rewrite !len_app, !len_be_enc. Qed.
Lemma enc_header_bytes h : bytes_ok (enc_header h).
Proof. unfold enc_header, bytes_ok. rewrite !Forall_app. repeat split; apply be_enc_ok. Qed.
Lemma rd_be4_has v buf pos : v < 2 ^ 32 -> has buf pos (be_enc 4 v) -> rd_be 4 buf pos = Ok (v, pos + 4).
Proof. intros H1 H2. now apply (rd_be_has 4). Qed.
Lemma rd_be2_has v buf pos : v < 2 ^ 16 -> has buf pos (be_enc 2 v) -> rd_be 2 buf pos = Ok (v, pos + 2).
Proof. intros H1 H2. now apply (rd_be_has 2). Qed.
Lemma rd_be4_inv v buf pos pos' : bytes_ok buf -> rd_be 4 buf pos = Ok (v, pos') -> v < 2 ^ 32 /\ has buf pos (be_enc 4 v) /\ pos' = pos + 4.
Proof. intros H1 H2. now apply (rd_be_inv 4) in H2. Qed.
Lemma rd_be2_inv v buf pos pos' : bytes_ok buf -> rd_be 2 buf pos = Ok (v, pos') -> v < 2 ^ 16 /\ has buf pos (be_enc 2 v) /\ pos' = pos + 2.
Proof. intros H1 H2. now apply (rd_be_inv 2) in H2. Qed.

Lemma header_wr h buf pos : header_ok h -> has buf pos (enc_header h) -> rd_header buf pos = Ok (h, pos + 12).
Proof.
  intros (HK & HS & HT) HH. unfold enc_header in HH. apply has_app in HH as [H1 HH]. apply has_app in HH as [H2 H3].
  rewrite !len_be_enc in *. unfold rd_header, rd_ckind, bind.
  rewrite (rd_be_has 4 _ _ _ (ckind_code_u32 _ HK) H1). unfold ret. rewrite ckind_of_code by easy.
  rewrite (rd_be_has 4 _ _ _ HS H2). rewrite (rd_be_has 4 _ _ _ HT H3). destruct h. do 2 f_equal. cbn [N.of_nat]. lia.
Qed.
Lemma header_rw h buf pos pos' :
  bytes_ok buf -> rd_header buf pos = Ok (h, pos') -> header_ok h /\ has buf pos (enc_header h) /\ pos' = pos + 12.
Proof.
  intros HB HR. unfold rd_header, rd_ckind in HR. apply bind_inv in HR as (k & p1 & H1 & HR). apply bind_inv in H1 as (c & p0 & H0 & H1).
  apply ret_inv in H1 as [<- <-]. apply bind_inv in HR as (s & p2 & H2 & HR). apply bind_inv in HR as (t & p3 & H3 & HR).
  apply ret_inv in HR as [<- <-]. apply rd_be4_inv in H0 as (C1 & C2 & ->); [|easy]. apply rd_be4_inv in H2 as (S1 & S2 & ->); [|easy].
  apply rd_be4_inv in H3 as (T1 & T2 & ->); [|easy]. unfold header_ok, enc_header. cbn [h_kind h_size h_total]. rewrite ckind_code_of.
  split; [split; [now apply ckind_of_ok|easy]|]. split; [|lia]. apply has_app. split; [easy|]. rewrite len_be_enc. apply has_app.
  split; [exact S2|]. rewrite len_be_enc. exact T2.
Qed.

(** ** Comments *)
Lemma be_enc_2 v : v < 65536 -> be_enc 2 v = [v / 256; v mod 256].
Proof. intro H. change (be_enc 2 v) with [v / 256 mod 256; v mod 256]. f_equal. lia. Qed.
Lemma len_units us : len (flat_map (be_enc 2) us) = 2 * len us.
Proof. induction us as [|u us IH]; [easy|]. cbn [flat_map]. rewrite len_app, IH, len_be_enc, len_cons. lia. Qed.
Lemma be_units_enc us bs : Forall (fun u => u < 65536) us -> be_units (flat_map (be_enc 2) us ++ bs) = us ++ be_units bs.
Proof.
  induction us as [|u us IH]; intro H; [easy|]. inversion H; subst. cbn [flat_map]. rewrite be_enc_2 by easy. cbn [app be_units].
  rewrite IH by easy. f_equal. lia.
Qed.
Lemma be_units_inv : forall bs, bytes_ok bs -> len bs mod 2 = 0 -> flat_map (be_enc 2) (be_units bs) = bs.
Proof.
  fix IH 1. intros [|x [|y bs]] HB HL; [easy|exfalso; cbn in HL; discriminate|]. inversion HB as [|? ? HX HB1]; subst. inversion HB1 as [|? ? HY HB2]; subst.
  cbn [be_units flat_map]. rewrite be_enc_2 by lia. cbn [app]. rewrite IH; [|easy|rewrite !len_cons in HL; lia].
  f_equal; [lia|]. f_equal. lia.
Qed.
Lemma be_units_u16 : forall bs, bytes_ok bs -> Forall (fun u => u < 65536) (be_units bs).
Proof.
  fix IH 1. intros [|x [|y bs]] HB; [constructor|constructor|]. inversion HB as [|? ? HX HB1]; subst. inversion HB1 as [|? ? HY HB2]; subst.
  cbn [be_units]. constructor; [lia|now apply IH].
Qed.
Lemma len_be_units : forall bs, len (be_units bs) = len bs / 2.
Proof.
  fix IH 1. intros [|x [|y bs]]; [reflexivity|reflexivity|]. cbn [be_units]. rewrite !len_cons, IH. lia.
Qed.
Lemma utf16_enc_app s t : utf16_enc (s ++ t) = utf16_enc s ++ utf16_enc t.
Proof. unfold utf16_enc. apply flat_map_app. Qed.
Lemma utf16_enc_dec : forall us s, Forall (fun u => u < 65536) us -> utf16_dec us = Some s -> utf16_enc s = us /\ ustr_ok s.
Proof.
  intro us. assert (exists n, (length us <= n)%nat) as (n & HN) by eauto. revert us HN.
  induction n as [|n IH]; intros [|u us] HN s HU HD; try (injection HD as <-; split; [easy|constructor]); cbn [length] in HN; [lia|].
  cbn [utf16_dec] in HD. inversion HU as [|? ? U1 U2]; subst. destruct (in_range 0xD800 0xDBFF u) eqn:E1.
  - destruct us as [|v us]; [easy|]. destruct (in_range 0xDC00 0xDFFF v) eqn:E2; [|easy].
    inversion U2 as [|? ? V1 V2]; subst. destruct (utf16_dec us) as [r|] eqn:ED; [|easy]. cbn [option_map] in HD.
    assert (s = (0x10000 + (u - 0xD800) * 1024 + (v - 0xDC00)) :: r) as -> by congruence. destruct (IH us ltac:(cbn [length] in HN; lia) r V2 ED) as [IE IO]. unfold in_range in *. unfold utf16_enc in *. cbn [flat_map]. rewrite IE. split.
    + unfold utf16_enc1. match goal with |- context [?x <? 65536] => replace (x <? 65536) with false by lia end. cbn [app]. f_equal; [lia|]. f_equal. lia.
    + constructor; [|easy]. unfold is_scalar. lia.
  - destruct (in_range 0xDC00 0xDFFF u) eqn:E2; [easy|]. destruct (utf16_dec us) as [r|] eqn:ED; [|easy]. cbn [option_map] in HD. injection HD as <-.
    destruct (IH us ltac:(lia) r U2 ED) as [IE IO]. unfold in_range in *. unfold utf16_enc in *. cbn [flat_map]. rewrite IE. split.
    + unfold utf16_enc1. now replace (u <? 0x10000) with true by lia.
    + constructor; [|easy]. unfold is_scalar. lia.
Qed.

(** The string ends with a NUL character. *)
Definition ends_nul (s : list N) : Prop := exists r, s = r ++ [0].
Lemma trim_end0_snoc s : trim_end0 (s ++ [0]) = trim_end0 s.
Proof. induction s as [|c s IH]; [easy|]. cbn [app trim_end0]. now rewrite IH. Qed.
Lemma trim_end0_id s : ~ ends_nul s -> trim_end0 s = s.
Proof.
  induction s as [|c s IH]; intro H; [easy|]. cbn [trim_end0]. destruct s as [|d s].
  - cbn. destruct (c =? 0) eqn:E; [|easy]. exfalso. apply H. exists []. cbn. f_equal. lia.
  - rewrite IH; [easy|]. intros (r & E). apply H. exists (c :: r). now rewrite E.
Qed.
Lemma trim_end0_not s : ~ ends_nul (trim_end0 s).
Proof.
  induction s as [|c s IH]; intros (r & E); [now destruct r|]. cbn [trim_end0] in E. destruct (trim_end0 s) as [|d t] eqn:ET.
  - destruct (c =? 0) eqn:EC; [now destruct r|]. destruct r as [|x r]; [|destruct r; discriminate]. cbn in E. injection E as ->. discriminate.
  - destruct r as [|x r]; [discriminate|]. cbn in E. injection E as <- E. apply IH. now exists r.
Qed.
Lemma trim_end0_zeros s : exists k, s = trim_end0 s ++ repeat 0 k.
Proof.
  induction s as [|c s (k & IH)]; [now exists 0%nat|]. cbn [trim_end0]. destruct (trim_end0 s) as [|d t] eqn:ET.
  - destruct (c =? 0) eqn:EC.
    + exists (S k). cbn. assert (c = 0) as -> by lia. cbn in IH. now rewrite IH at 1.
    + exists k. cbn in *. now rewrite IH at 1.
  - exists k. rewrite IH at 1. reflexivity.
Qed.
Lemma trim_end0_ok s : ustr_ok s -> ustr_ok (trim_end0 s).
Proof.
  intro H. destruct (trim_end0_zeros s) as (k & E). unfold ustr_ok in *. rewrite E in H. now apply Forall_app in H as [H _].
Qed.
Lemma ends_nul_dec s : ends_nul s \/ ~ ends_nul s.
Proof.
  destruct (list_eq_dec N.eq_dec (trim_end0 s) s) as [E|E].
  - right. rewrite <- E. apply trim_end0_not.
  - left. destruct (trim_end0_zeros s) as ([|k] & EZ).
    + cbn in EZ. rewrite app_nil_r in EZ. congruence.
    + exists (trim_end0 s ++ repeat 0 k). rewrite EZ at 1. rewrite <- app_assoc. f_equal. clear.
      induction k as [|k IH]; [easy|]. cbn in *. now rewrite IH.
Qed.

(** The number of bytes of a comment of reasonable length, without the length field. *)
Definition comment_size (s : list N) : N := match s with [] => 0 | _ => 2 * (len (utf16_enc s) + 1) end.
Lemma byte_len_ok b s : comment_size s < 2 ^ 32 -> byte_len b s = Ok (comment_size s).
Proof.
  unfold byte_len, comment_size. destruct s as [|c s]; [easy|]. set (n := len _). intro H.
  rewrite (N.mod_small n) by lia. unfold wadd. replace (n + 1 <? 2 ^ 32) with true by lia. cbn [res_bind]. unfold wmul.
  replace ((n + 1) * 2 <? 2 ^ 32) with true by lia. f_equal. lia.
Qed.
Definition comment_bytes (s : list N) : list N :=
  be_enc 4 (comment_size s) ++ match s with [] => [] | _ => flat_map (be_enc 2) (utf16_enc s) ++ [0; 0] end.
Lemma enc_comment_ok b s : comment_size s < 2 ^ 32 -> enc_comment b s = Ok (comment_bytes s).
Proof.
  intro H. unfold enc_comment. rewrite byte_len_ok by easy. cbn [res_bind]. unfold comment_bytes, comment_size.
  destruct s as [|c s]; [easy|]. now replace (0 <? 2 * (len (utf16_enc (c :: s)) + 1)) with true by lia.
Qed.
Lemma len_comment_bytes s : len (comment_bytes s) = 4 + comment_size s.
Proof.
  unfold comment_bytes, comment_size. destruct s as [|c s]; [easy|]. rewrite !len_app, len_be_enc, len_units, !len_cons, (@len_nil N). lia.
Qed.
Lemma comment_wr s buf pos :
  ustr_ok s -> comment_size s < 2 ^ 32 -> has buf pos (comment_bytes s) ->
  rd_comment buf pos = Ok (trim_end0 s, pos + len (comment_bytes s)).
Proof.
  intros HS HL HH. rewrite len_comment_bytes. unfold comment_bytes in HH. apply has_app in HH as [H1 H2]. rewrite len_be_enc in H2. unfold rd_comment, bind.
  rewrite (rd_be_has 4 _ _ _ HL H1). destruct s as [|c t] eqn:ES.
  - cbn [comment_size N.eqb]. unfold ret. reflexivity.
  - rewrite <- ES in *. assert (0 < comment_size s) as LP.
    { rewrite ES. unfold comment_size. lia. }
    replace (comment_size s =? 0) with false by lia.
    assert (len (flat_map (be_enc 2) (utf16_enc s) ++ [0; 0]) = comment_size s) as LE.
    { rewrite len_app, len_units, !len_cons, (@len_nil N). rewrite ES. unfold comment_size. lia. }
    rewrite <- LE at 1. rewrite (rd_bytes_has _ _ _ H2).
    rewrite be_units_enc by now apply utf16_units. cbn [be_units].
    replace (utf16_enc s ++ [256 * 0 + 0]) with (utf16_enc (s ++ [0])) by (rewrite utf16_enc_app; reflexivity).
    rewrite utf16_dec_enc; [|apply Forall_app; split; [easy|repeat constructor]]. unfold ret. rewrite trim_end0_snoc, LE.
    do 2 f_equal. cbn [N.of_nat]. lia.
Qed.
