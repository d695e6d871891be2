(** * Settings files: rewriting, the checksum and its error detection *)
From Coq Require Import NArith ZArith List Bool Lia.
From Coq Require Import ZifyBool ZifyNat ZifyN.
From Verif Require Import Base BaseFacts AnlzCodec Crc CrcFacts Setting SettingFacts.
Import ListNotations.
Open Scope N_scope.

Definition strings_nz (s : setting) : Prop :=
  Forall (fun x => x <> 0) (st_brand s) /\ Forall (fun x => x <> 0) (st_software s) /\ Forall (fun x => x <> 0) (st_version s).
Definition strings_bytes (s : setting) : Prop :=
  bytes_ok (st_brand s) /\ bytes_ok (st_software s) /\ bytes_ok (st_version s).

(** ** Writing succeeds exactly if the strings fit *)
Lemma write_total s : sdata_ok (st_data s) ->
  (len (st_brand s) <= 31 /\ len (st_software s) <= 31 /\ len (st_version s) <= 31 /\ exists bs, enc_setting s = Ok bs) \/
  ((31 < len (st_brand s) \/ 31 < len (st_software s) \/ 31 < len (st_version s)) /\ enc_setting s = Err EAssertFail).
Proof.
  intro D.
  destruct (N.leb_spec (len (st_brand s)) 31) as [L1|L1].
  2: { right. split; [lia|]. unfold enc_setting, enc_front, enc_str32 at 1. now replace (len (st_brand s) <=? 31) with false by lia. }
  destruct (N.leb_spec (len (st_software s)) 31) as [L2|L2].
  2: { right. split; [lia|]. unfold enc_setting, enc_front, enc_str32 at 1 2. replace (len (st_brand s) <=? 31) with true by lia.
       now replace (len (st_software s) <=? 31) with false by lia. }
  destruct (N.leb_spec (len (st_version s)) 31) as [L3|L3].
  2: { right. split; [lia|]. unfold enc_setting, enc_front, enc_str32. replace (len (st_brand s) <=? 31) with true by lia.
       replace (len (st_software s) <=? 31) with true by lia. now replace (len (st_version s) <=? 31) with false by lia. }
  left. destruct (enc_setting_front s) as (f & _ & E); [easy|]. eauto.
Qed.

Lemma cut_strings_id s : cut_strings s = s <-> strings_nz s.
Proof.
  split.
  - intro H. unfold strings_nz. rewrite <- H. cbn [cut_strings st_brand st_software st_version].
    split; [|split]; apply cut0_nz.
  - intros (H1 & H2 & H3). unfold cut_strings. rewrite !cut0_id by easy. now destruct s.
Qed.

(** ** Files that are read and written again *)
Lemma getN_pad32 s i : len s <= 31 -> i < 32 -> getN (pad_to 32 (s ++ [0])) i = if i <=? len s then getN (s ++ [0]) i else Some 0.
Proof.
  intros L I. unfold pad_to. assert (len (s ++ [0]) = len s + 1) as LS by (rewrite len_app, len_cons, (@len_nil N); lia).
  rewrite getN_app, LS. destruct (N.leb_spec i (len s)).
  - now replace (i <? len s + 1) with true by lia.
  - replace (i <? len s + 1) with false by lia. rewrite getN_zeros.
    now replace (i - (len s + 1) <? 32 - (len s + 1)) with true by lia.
Qed.

(** The bytes of a written file, by offset. *)
Definition front_byte (s : setting) (d : list N) (i : N) : option N :=
  if i <? 4 then getN (le_enc 4 96) i
  else if i <? 36 then (if i - 4 <=? len (st_brand s) then getN (st_brand s ++ [0]) (i - 4) else Some 0)
  else if i <? 68 then (if i - 36 <=? len (st_software s) then getN (st_software s ++ [0]) (i - 36) else Some 0)
  else if i <? 100 then (if i - 68 <=? len (st_version s) then getN (st_version s ++ [0]) (i - 68) else Some 0)
  else if i <? 104 then getN (le_enc 4 (data_size (sd_type (st_data s)))) (i - 100)
  else getN d (i - 104).

Lemma front_bytes s f d i : setting_ok s -> enc_front s = Ok f ->
  enc_items (items_of (sd_type (st_data s))) (sd_vals (st_data s)) = Ok d -> getN f i = front_byte s d i.
Proof.
  intros OK F D. destruct (enc_front_ok s OK) as (d' & D' & LD & _ & F'). rewrite D in D'. apply Ok_inj in D' as <-.
  rewrite F in F'. apply Ok_inj in F' as ->. destruct OK as (L1 & L2 & L3 & _). unfold front_byte.
  rewrite getN_app, len_le_enc. change (N.of_nat 4) with 4. destruct (N.ltb_spec i 4) as [I|I]; [easy|].
  rewrite getN_app, len_pad32 by easy. replace (i - 4 <? 32) with (i <? 36) by lia.
  destruct (N.ltb_spec i 36) as [I2|I2]; [apply getN_pad32; [easy|lia]|].
  rewrite getN_app, len_pad32 by easy. replace (i - 4 - 32) with (i - 36) by lia. replace (i - 36 <? 32) with (i <? 68) by lia.
  destruct (N.ltb_spec i 68) as [I3|I3]; [apply getN_pad32; [easy|lia]|].
  rewrite getN_app, len_pad32 by easy. replace (i - 36 - 32) with (i - 68) by lia. replace (i - 68 <? 32) with (i <? 100) by lia.
  destruct (N.ltb_spec i 100) as [I4|I4]; [apply getN_pad32; [easy|lia]|].
  rewrite getN_app, len_le_enc. change (N.of_nat 4) with 4. replace (i - 68 - 32) with (i - 100) by lia.
  replace (i - 100 <? 4) with (i <? 104) by lia.
  destruct (N.ltb_spec i 104) as [I5|I5]; [easy|]. f_equal. lia.
Qed.

(** Offset [i] is padding behind one of the three strings. *)
Definition in_padding (s : setting) (i : N) : Prop :=
  (4 + len (st_brand s) < i /\ i < 36) \/ (36 + len (st_software s) < i /\ i < 68) \/ (68 + len (st_version s) < i /\ i < 100).

Lemma has_at buf pos bs i : has buf pos bs -> pos <= i -> i < pos + len bs -> getN buf i = getN bs (i - pos).
Proof.
  intros H A B. apply has_get in H as [_ H]. specialize (H (i - pos) ltac:(lia)). now replace (pos + (i - pos)) with i in H by lia.
Qed.

Lemma setting_rw t buf s p : bytes_ok buf -> rd_setting t buf 0 = Ok (s, p) ->
  p = 108 + data_size t /\ p <= len buf /\ sd_type (st_data s) = t /\ setting_ok s /\ strings_nz s /\ strings_bytes s /\
  exists bs, enc_setting s = Ok bs /\ len bs = p /\
    forall i, i < p -> in_padding s i \/ (104 + data_size t <= i /\ i < 106 + data_size t) \/ getN bs i = getN buf i.
Proof.
  intros HB H. apply setting_inv in H as (-> & d & c & T & D & Z1 & L1 & Z2 & L2 & Z3 & L3 & E & C & H0 & H1 & H2 & H3 & H4 & H5 & H6 & H7); [|easy].
  pose proof (has_len _ _ _ H7) as LB. rewrite len_le_enc in LB. change (N.of_nat 2) with 2 in LB.
  assert (setting_ok s) as OK by easy.
  split; [lia|]. split; [lia|]. split; [easy|]. split; [easy|]. split; [easy|]. split.
  { split; [|split].
    - apply (has_bytes_ok _ _ _ HB) in H1. now apply Forall_app in H1 as [H1 _].
    - apply (has_bytes_ok _ _ _ HB) in H2. now apply Forall_app in H2 as [H2 _].
    - apply (has_bytes_ok _ _ _ HB) in H3. now apply Forall_app in H3 as [H3 _]. }
  destruct (enc_setting_front s OK) as (f & F & W). eexists. split; [exact W|].
  pose proof (len_front s f OK F) as LF. rewrite T in LF. split; [rewrite !len_app, !len_le_enc, LF; lia|].
  destruct (enc_front_ok s OK) as (d' & E' & LD & _). rewrite T, E in E'. apply Ok_inj in E' as <-. rewrite T in LD.
  intros i I. unfold in_padding. rewrite getN_app, LF. destruct (N.ltb_spec i (104 + data_size t)) as [I1|I1].
  - assert (len (st_brand s ++ [0]) = len (st_brand s) + 1 /\ len (st_software s ++ [0]) = len (st_software s) + 1 /\
            len (st_version s ++ [0]) = len (st_version s) + 1) as (A1 & A2 & A3).
    { rewrite !len_app, !len_cons, !(@len_nil N). lia. }
    rewrite (front_bytes s f d) by (congruence || easy). unfold front_byte.
    destruct (N.ltb_spec i 4) as [I2|I2].
    { right; right. symmetry. rewrite (has_at _ _ _ i H0) by (rewrite ?len_le_enc; lia). now rewrite N.sub_0_r. }
    destruct (N.ltb_spec i 36) as [I3|I3].
    { destruct (N.leb_spec (i - 4) (len (st_brand s))); [|left; lia]. right; right. symmetry.
      apply (has_at _ _ _ i H1); lia. }
    destruct (N.ltb_spec i 68) as [I4|I4].
    { destruct (N.leb_spec (i - 36) (len (st_software s))); [|left; lia]. right; right. symmetry.
      apply (has_at _ _ _ i H2); lia. }
    destruct (N.ltb_spec i 100) as [I5|I5].
    { destruct (N.leb_spec (i - 68) (len (st_version s))); [|left; lia]. right; right. symmetry.
      apply (has_at _ _ _ i H3); lia. }
    right; right. symmetry. destruct (N.ltb_spec i 104) as [I6|I6].
    { rewrite T. apply (has_at _ _ _ i H4); [lia|]. rewrite len_le_enc. lia. }
    apply (has_at _ _ _ i H5); lia.
  - rewrite getN_app, len_le_enc. change (N.of_nat 2) with 2. destruct (N.ltb_spec (i - (104 + data_size t)) 2) as [I2|I2].
    + right; left. lia.
    + right; right. symmetry. rewrite (has_at _ _ _ i H7) by (rewrite ?len_le_enc; lia). f_equal. lia.
Qed.

(** ** The checksum bytes *)
Definition slice (bs : list N) (start n : N) : list N := takeN n (dropN start bs).

Lemma front_bytes_ok s f : setting_ok s -> strings_bytes s -> enc_front s = Ok f -> bytes_ok f.
Proof.
  intros OK (B1 & B2 & B3) F. destruct (enc_front_ok s OK) as (d & _ & _ & BD & F'). rewrite F in F'. apply Ok_inj in F' as ->.
  assert (forall x, bytes_ok x -> bytes_ok (pad_to 32 (x ++ [0]))) as P.
  { intros x X. unfold pad_to. apply Forall_app. split; [apply Forall_app; split; [easy|constructor; [easy|constructor]]|].
    apply Forall_forall. intros y Y. unfold zeros in Y. apply repeat_spec in Y as ->. easy. }
  assert (forall x y, bytes_ok x -> bytes_ok y -> bytes_ok (x ++ y)) as A by (intros; now apply Forall_app).
  apply A; [apply le_enc_ok|]. apply A; [now apply P|]. apply A; [now apply P|]. apply A; [now apply P|].
  apply A; [apply le_enc_ok|easy].
Qed.

Lemma checksum_bytes s bs : setting_ok s -> strings_bytes s -> enc_setting s = Ok bs ->
  let t := sd_type (st_data s) in
  let n := 104 + data_size t in
  exists r, slice bs n 2 = le_enc 2 r /\
    is_rem16 (N.shiftl (msg_num (match t with TDjm => slice bs 0 n | _ => slice bs 104 (data_size t) end)) 16) xmodem_poly r.
Proof.
  intros OK SB E t n. destruct (enc_setting_front s OK) as (f & F & E'). rewrite E in E'. apply Ok_inj in E' as ->.
  pose proof (len_front s f OK F) as LF. fold t n in LF. exists (crc16 (covered t f)).
  pose proof (front_bytes_ok s f OK SB F) as BF.
  split.
  - unfold slice. rewrite dropN_app by easy. rewrite takeN_app; [easy|]. now rewrite len_le_enc.
  - match goal with |- is_rem16 (N.shiftl (msg_num ?m) 16) _ _ => assert (m = covered t f) as -> end.
    { assert (forall r : list N, slice (f ++ r) 104 (data_size t) = dropN 104 f) as A.
      { intro r. unfold slice, dropN. rewrite skipn_app.
        replace (N.to_nat 104 - length f)%nat with 0%nat by (unfold len in LF; lia). cbn [skipn].
        rewrite takeN_app; [easy|]. fold (dropN 104 f). rewrite len_dropN. lia. }
      destruct t; unfold covered; try apply A. unfold slice. change (dropN 0 ?x) with x. now rewrite takeN_app. }
    apply crc16_rem. unfold covered. destruct t; try easy;
      (rewrite <- (takeN_dropN 104 f) in BF; now apply Forall_app in BF as [_ BF]).
Qed.

(** ** Error detection *)
Definition burst (e : list bool) : Prop :=
  exists k w n, e = repeat false k ++ w ++ repeat false n /\ (length w <= 16)%nat /\ In true w.

Lemma not_zeros w : In true w -> w <> repeat false (length w).
Proof. intros H E. rewrite E in H. apply repeat_spec in H. easy. Qed.

Lemma xor_msg_len a : forall b, length a = length b -> length (xor_msg a b) = length a.
Proof. induction a as [|x a IH]; intros [|y b] H; try easy. cbn [xor_msg length]. now rewrite IH by now injection H. Qed.
Lemma xor_msg_ok a : forall b, bytes_ok a -> bytes_ok b -> bytes_ok (xor_msg a b).
Proof.
  induction a as [|x a IH]; intros [|y b] A B; try constructor.
  - apply Forall_cons_iff in A as [A _]. apply Forall_cons_iff in B as [B _]. unfold is_u8 in *. now apply (lxor_lt x y 8).
  - apply Forall_cons_iff in A as [_ A]. apply Forall_cons_iff in B as [_ B]. now apply IH.
Qed.

Lemma burst_detected a b : length a = length b -> burst (xor_bits (bits_of a) (bits_of b)) -> crc16 a <> crc16 b.
Proof.
  intros L (k & w & n & E & LW & IW) H.
  apply (crc_burst k w n LW (not_zeros w IW)). rewrite <- E, <- (N.lxor_0_l 0) at 1.
  rewrite crc_bits_lxor by (rewrite !length_bits_of; lia). unfold crc16 in H. rewrite H. apply N.lxor_nilpotent.
Qed.

Lemma burst_rem a b r : length a = length b -> bytes_ok a -> bytes_ok b -> burst (xor_bits (bits_of a) (bits_of b)) ->
  is_rem16 (N.shiftl (msg_num a) 16) xmodem_poly r -> ~ is_rem16 (N.shiftl (msg_num b) 16) xmodem_poly r.
Proof.
  intros L A B H RA RB. apply (burst_detected a b L H).
  rewrite (rem16_unique _ _ _ (crc16_rem a A) RA). symmetry. exact (rem16_unique _ _ _ (crc16_rem b B) RB).
Qed.

Lemma xor_bits_same a : xor_bits a a = repeat false (length a).
Proof. induction a as [|x a IH]; [easy|]. cbn [xor_bits length repeat]. rewrite IH. now destruct x. Qed.
Lemma xor_bits_app a1 : forall a2 b1 b2, length a1 = length b1 -> xor_bits (a1 ++ a2) (b1 ++ b2) = xor_bits a1 b1 ++ xor_bits a2 b2.
Proof. induction a1 as [|x a IH]; intros a2 [|y b] b2 H; try easy. cbn [app xor_bits]. rewrite IH by now injection H. easy. Qed.
Lemma bits_of_app a b : bits_of (a ++ b) = bits_of a ++ bits_of b.
Proof. apply flat_map_app. Qed.

Lemma byte_bits_inj x y : x < 256 -> y < 256 -> byte_bits x = byte_bits y -> x = y.
Proof.
  intros X Y H. pose proof (push_byte x 0 X) as PX. pose proof (push_byte y 0 Y) as PY. rewrite H in PX. lia.
Qed.
Lemma xor_byte_diff x y : x < 256 -> y < 256 -> x <> y -> In true (xor_bits (byte_bits x) (byte_bits y)).
Proof.
  intros X Y D. destruct (in_dec bool_dec true (xor_bits (byte_bits x) (byte_bits y))) as [I|I]; [easy|].
  exfalso. apply D, byte_bits_inj; try easy. revert I. unfold byte_bits. cbn [map xor_bits In].
  generalize (N.testbit x 7) (N.testbit x 6) (N.testbit x 5) (N.testbit x 4) (N.testbit x 3) (N.testbit x 2) (N.testbit x 1) (N.testbit x 0).
  generalize (N.testbit y 7) (N.testbit y 6) (N.testbit y 5) (N.testbit y 4) (N.testbit y 3) (N.testbit y 2) (N.testbit y 1) (N.testbit y 0).
  intros a7 a6 a5 a4 a3 a2 a1 a0 b7 b6 b5 b4 b3 b2 b1 b0 I.
  assert (forall u v, xorb u v <> true -> v = u) as Q by (intros [] []; easy).
  repeat f_equal; symmetry; apply Q; intro C; apply I; rewrite C; tauto.
Qed.

Lemma one_byte_burst pre post x y : x < 256 -> y < 256 -> x <> y ->
  burst (xor_bits (bits_of (pre ++ x :: post)) (bits_of (pre ++ y :: post))).
Proof.
  intros X Y D. exists (length (bits_of pre)), (xor_bits (byte_bits x) (byte_bits y)), (length (bits_of post)).
  split; [|split; [cbn; lia|now apply xor_byte_diff]].
  rewrite !bits_of_app, xor_bits_app, xor_bits_same by easy. f_equal.
  change (x :: post) with ([x] ++ post). change (y :: post) with ([y] ++ post).
  rewrite !bits_of_app, xor_bits_app, xor_bits_same by easy. unfold bits_of at 1 2. cbn [flat_map]. now rewrite !app_nil_r.
Qed.

(** Two settings that differ in one option only. *)
Lemma enc_items_app l1 : forall v1 l2 v2, length l1 = length v1 ->
  enc_items (l1 ++ l2) (v1 ++ v2) = (do! x <- enc_items l1 v1; do! y <- enc_items l2 v2; Ok (x ++ y)).
Proof.
  induction l1 as [|i l1 IH]; intros [|v v1] l2 v2 H; try easy.
  - cbn. destruct (enc_items l2 v2); easy.
  - cbn [app enc_items]. rewrite IH by now injection H. destruct (enc_item i v) as [x| |]; cbn [res_bind]; try easy.
    destruct (enc_items l1 v1) as [y| |]; cbn [res_bind]; try easy.
    destruct (enc_items l2 v2) as [z| |]; cbn [res_bind]; try easy. now rewrite app_assoc.
Qed.

Lemma one_option_checksum s s' l1 e l2 v1 x y v2 c c' :
  setting_ok s -> setting_ok s' -> sd_type (st_data s) = sd_type (st_data s') ->
  st_brand s = st_brand s' -> st_software s = st_software s' -> st_version s = st_version s' ->
  items_of (sd_type (st_data s)) = l1 ++ IOpt e :: l2 -> length l1 = length v1 ->
  sd_vals (st_data s) = v1 ++ VOpt x :: v2 -> sd_vals (st_data s') = v1 ++ VOpt y :: v2 -> x <> y ->
  checksum s = Ok c -> checksum s' = Ok c' -> c <> c'.
Proof.
  intros OK OK' T B1 B2 B3 L LV V V' XY C C'.
  destruct (enc_front_ok s OK) as (d & D & LD & BD & F). destruct (enc_front_ok s' OK') as (d' & D' & LD' & BD' & F').
  rewrite (checksum_front s _ OK F) in C. rewrite (checksum_front s' _ OK' F') in C'.
  apply Ok_inj in C as <-. apply Ok_inj in C' as <-. rewrite <- T in *. rewrite <- B1, <- B2, <- B3 in *.
  set (t := sd_type (st_data s)) in *.
  assert (enum_wfb e = true) as WE.
  { pose proof (layouts_wf t) as W. rewrite L, forallb_app in W. apply andb_true_iff in W as [_ W]. cbn [forallb item_wfb] in W.
    now apply andb_true_iff in W as [W _]. }
  rewrite L, V, enc_items_app in D by easy. rewrite L, V', enc_items_app in D' by easy.
  destruct (enc_items l1 v1) as [a| |]; try easy. cbn [res_bind enc_items enc_item] in D, D'.
  destruct (se_code e x) as [cx|] eqn:CX; [|easy]. destruct (se_code e y) as [cy|] eqn:CY; [|easy]. cbn [res_bind] in D, D'.
  destruct (enc_items l2 v2) as [z| |]; try easy. cbn [res_bind app] in D, D'. apply Ok_inj in D as <-. apply Ok_inj in D' as <-.
  apply se_code_in in CX. apply se_code_in in CY.
  pose proof (enum_code_lt e _ WE CX) as LX. pose proof (enum_code_lt e _ WE CY) as LY. cbn [snd] in LX, LY.
  assert (cx <> cy) as CC. { intro EQ. apply XY. apply (enum_wf_same e _ _ WE CX CY). exact EQ. }
  assert (forall f0, crc16 (f0 ++ a ++ cx :: z) <> crc16 (f0 ++ a ++ cy :: z)) as K.
  { intro f0. rewrite !app_assoc. apply burst_detected; [now rewrite !app_length|]. now apply one_byte_burst. }
  set (h := le_enc 4 96 ++ pad_to 32 (st_brand s ++ [0]) ++ pad_to 32 (st_software s ++ [0]) ++ pad_to 32 (st_version s ++ [0]) ++ le_enc 4 (data_size t)).
  assert (len h = 104) as LH. { destruct OK as (L1 & L2 & L3 & _). unfold h. rewrite !len_app, !len_le_enc, !len_pad32 by easy. lia. }
  replace (le_enc 4 96 ++ pad_to 32 (st_brand s ++ [0]) ++ pad_to 32 (st_software s ++ [0]) ++ pad_to 32 (st_version s ++ [0]) ++ le_enc 4 (data_size t) ++ a ++ cx :: z)
    with (h ++ a ++ cx :: z) by (unfold h; now rewrite <- !app_assoc).
  replace (le_enc 4 96 ++ pad_to 32 (st_brand s ++ [0]) ++ pad_to 32 (st_software s ++ [0]) ++ pad_to 32 (st_version s ++ [0]) ++ le_enc 4 (data_size t) ++ a ++ cy :: z)
    with (h ++ a ++ cy :: z) by (unfold h; now rewrite <- !app_assoc).
  unfold covered. destruct t; [|apply K| |]; rewrite !dropN_app by easy; apply (K []).
Qed.

(** ** Other bytes of an option *)
Lemma items_app_ok l1 : forall l2 buf pos vs p, rd_items (l1 ++ l2) buf pos = Ok (vs, p) ->
  exists v1 p1 v2, rd_items l1 buf pos = Ok (v1, p1) /\ rd_items l2 buf p1 = Ok (v2, p).
Proof.
  induction l1 as [|i l1 IH]; intros l2 buf pos vs p H.
  - exists [], pos, vs. easy.
  - cbn [app rd_items] in H. apply bind_inv in H as (v & q & H1 & H). apply bind_inv in H as (vs' & q2 & H2 & H).
    apply ret_inv in H as [<- <-]. apply IH in H2 as (v1 & p1 & v2 & A & B). exists (v :: v1), p1, v2. split; [|easy].
    cbn [rd_items]. eapply bind_ok; [exact H1|]. cbv beta. eapply bind_ok; [exact A|]. reflexivity.
Qed.

Lemma forall2_app_l {A B} (R : A -> B -> Prop) a1 a2 b : Forall2 R (a1 ++ a2) b ->
  exists b1 b2, b = b1 ++ b2 /\ Forall2 R a1 b1 /\ Forall2 R a2 b2.
Proof. intro H. apply Forall2_app_inv_l in H as (b1 & b2 & H1 & H2 & ->). eauto. Qed.

(** In an accepted file, the byte of each option is the code of the value that is reported. *)
Lemma option_byte t buf s p l1 e l2 : bytes_ok buf -> rd_setting t buf 0 = Ok (s, p) -> items_of t = l1 ++ IOpt e :: l2 ->
  exists v1 x v2 c, sd_vals (st_data s) = v1 ++ VOpt x :: v2 /\ length v1 = length l1 /\
    getN buf (104 + fold_right (fun i n => item_size i + n) 0 l1) = Some c /\ se_variant e c = Some x.
Proof.
  intros HB H L. apply setting_inv in H as (_ & d & c0 & T & D & _ & _ & _ & _ & _ & _ & E & _ & _ & _ & _ & _ & _ & H5 & _); [|easy].
  unfold sdata_ok in D. rewrite T, L in D. apply forall2_app_l in D as (v1 & v' & EV & D1 & D2).
  inversion D2 as [|i' x0 l' v2 Dx Dv E1 E2]. subst. destruct x0 as [x|]; [|easy]. cbn [item_ok] in Dx.
  pose proof (layouts_wf (sd_type (st_data s))) as W. rewrite L, forallb_app in W. apply andb_true_iff in W as [W1 W].
  cbn [forallb item_wfb] in W. apply andb_true_iff in W as [WE W2].
  assert (length l1 = length v1) as LL by (clear -D1; induction D1; cbn; congruence).
  destruct (enc_items_ok _ _ W1 D1) as (a & EA & LA & _). destruct (enc_items_ok _ _ W2 Dv) as (z & EZ & _ & _).
  apply in_map_iff in Dx as ([x' c] & <- & IX). cbn [fst] in *.
  rewrite L, EV, enc_items_app, EA in E by easy. cbn [res_bind enc_items enc_item] in E. rewrite (in_se_code _ _ _ WE IX) in E.
  cbn [res_bind] in E. rewrite EZ in E. cbn [res_bind] in E. apply Ok_inj in E as <-.
  exists v1, x', v2, c. split; [easy|]. split; [easy|]. split; [|now apply in_se_variant].
  apply has_app in H5 as [_ H5]. apply has_cons in H5 as [H5 _]. now rewrite LA in H5.
Qed.

