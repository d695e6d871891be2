(** * Properties C45 to C50: settings files *)
From Coq Require Import NArith ZArith List Bool String Lia.
From Verif Require Import Base BaseFacts Crc CrcFacts Setting SettingFacts SettingSpec.
Import ListNotations.
Open Scope N_scope.

(** ** C45: write and read

    [sdata_ok]: the options have values that exist, the free fields the right lengths, and the fixed fields (private,
    without setters) their fixed values. *)
Theorem c45_roundtrip : forall s rest, sdata_ok (st_data s) ->
  len (st_brand s) <= 31 -> len (st_software s) <= 31 -> len (st_version s) <= 31 -> strings_nz s ->
  exists bs, enc_setting s = Ok bs /\ rd_setting (sd_type (st_data s)) (bs ++ rest) 0 = Ok (s, len bs).
Proof.
  intros s rest D L1 L2 L3 NZ. assert (setting_ok s) as OK by easy.
  destruct (enc_setting_front s OK) as (f & _ & E). eexists. split; [exact E|].
  rewrite (setting_wr s _ 0 _ OK E); [now rewrite (proj2 (cut_strings_id s) NZ)|]. exists [], rest. easy.
Qed.
Print Assumptions c45_roundtrip.
(** Zero bytes in the strings are the only loss: strings are cut at the first one. *)
Theorem c45_roundtrip_iff : forall s bs, sdata_ok (st_data s) -> enc_setting s = Ok bs ->
  (rd_setting (sd_type (st_data s)) bs 0 = Ok (s, len bs) <->
   (Forall (fun x => x <> 0) (st_brand s) /\ Forall (fun x => x <> 0) (st_software s) /\ Forall (fun x => x <> 0) (st_version s))).
Proof.
  intros s bs D E. destruct (write_total s D) as [(L1 & L2 & L3 & _)|[_ E']]; [|now rewrite E in E'].
  assert (setting_ok s) as OK by easy. rewrite (setting_wr s bs 0 bs OK E); [|exists [], []; now rewrite app_nil_r].
  rewrite N.add_0_l. fold (strings_nz s). rewrite <- cut_strings_id. split; [congruence|]. now intros ->.
Qed.
Print Assumptions c45_roundtrip_iff.
(** Writing fails exactly if a string has more than 31 bytes, and then with an error. *)
Theorem c45_write_total : forall s, sdata_ok (st_data s) ->
  (len (st_brand s) <= 31 /\ len (st_software s) <= 31 /\ len (st_version s) <= 31 /\ exists bs, enc_setting s = Ok bs) \/
  ((31 < len (st_brand s) \/ 31 < len (st_software s) \/ 31 < len (st_version s)) /\ enc_setting s = Err EAssertFail).
Proof. exact write_total. Qed.
Print Assumptions c45_write_total.
(** A file that is accepted is written again with the same bytes, except for bytes behind the end of the three strings
    and the checksum. *)
Theorem c45_rewrite : forall t buf s p, bytes_ok buf -> rd_setting t buf 0 = Ok (s, p) ->
  p = 108 + data_size t /\ p <= len buf /\ sd_type (st_data s) = t /\ setting_ok s /\ strings_nz s /\ strings_bytes s /\
  exists bs, enc_setting s = Ok bs /\ len bs = p /\
    forall i, i < p -> in_padding s i \/ (104 + data_size t <= i /\ i < 106 + data_size t) \/ getN bs i = getN buf i.
Proof. exact setting_rw. Qed.
Print Assumptions c45_rewrite.
Theorem c45_no_panic : forall t buf, rd_setting t buf 0 <> Panic.
Proof. intros. apply setting_no_panic. Qed.
Print Assumptions c45_no_panic.

(** The defaults, and changed values, meet the hypotheses. *)
Example c45_ex : forall t, sdata_ok (st_data (default_setting t)) /\ strings_nz (default_setting t) /\ strings_bytes (default_setting t).
Proof.
  intro t. split; [|split].
  - assert (H : forallb (fun p => match p with
        | (IOpt e, VOpt x) => existsb (String.eqb x) (map fst (se_vars e))
        | (IRaw (Some r) _, VRaw b) => bytes_eqb b r
        | (IRaw None d, VRaw b) => (len b =? len d) && forallb (fun x => x <? 256) b
        | _ => false end) (combine (items_of t) (default_vals (items_of t))) = true /\
      List.length (items_of t) = List.length (default_vals (items_of t))) by (destruct t; split; vm_compute; reflexivity).
    destruct H as [H L]. unfold sdata_ok. cbn [default_setting st_data sd_type sd_vals].
    revert H L. generalize (default_vals (items_of t)). generalize (items_of t). induction l as [|i l IH]; intros [|v vs] H L; try easy.
    cbn [combine forallb] in H. apply andb_true_iff in H as [H1 H2]. constructor; [|apply IH; [easy|now injection L]].
    destruct i as [e|[r|] d], v as [x|b]; cbn [item_ok]; try easy.
    + apply existsb_exists in H1 as (y & Y & E). apply String.eqb_eq in E as ->. easy.
    + now apply bytes_eqb_eq.
    + apply andb_true_iff in H1 as [A B]. split; [now apply N.eqb_eq|]. apply Forall_forall. intros y Y.
        rewrite forallb_forall in B. apply N.ltb_lt. now apply B.
  - destruct t; repeat split; repeat constructor; discriminate.
  - destruct t; repeat split; repeat constructor.
Qed.
(** The files of /repo/data/complete_export/empty/PIONEER are the defaults with other version strings. *)
Example c45_ex_dev : enc_setting (default_setting TDev) = Ok
   [96; 0; 0; 0; 80; 73; 79; 78; 69; 69; 82; 32; 68; 74; 0; 0; 0; 0; 0; 0; 0; 0; 0; 0; 0; 0; 0; 0; 0; 0; 0; 0; 0; 0;
    0; 0; 114; 101; 107; 111; 114; 100; 98; 111; 120; 0; 0; 0; 0; 0; 0; 0; 0; 0; 0; 0; 0; 0; 0; 0; 0; 0; 0; 0; 0; 0;
    0; 0; 54; 46; 54; 46; 49; 0; 0; 0; 0; 0; 0; 0; 0; 0; 0; 0; 0; 0; 0; 0; 0; 0; 0; 0; 0; 0; 0; 0; 0; 0; 0; 0; 32;
    0; 0; 0; 120; 86; 52; 18; 1; 0; 0; 0; 1; 1; 1; 1; 1; 1; 0; 0; 0; 0; 0; 0; 0; 0; 0; 0; 0; 0; 0; 0; 0; 0; 0; 0;
    22; 208; 0; 0].
Proof. vm_compute. reflexivity. Qed.
Example c45_ex_djm :
  enc_setting (mk_setting s_PioneerDJ s_rekordbox [49; 46; 48; 48; 48] (st_data (default_setting TDjm))) = Ok
   [96; 0; 0; 0; 80; 105; 111; 110; 101; 101; 114; 68; 74; 0; 0; 0; 0; 0; 0; 0; 0; 0; 0; 0; 0; 0; 0; 0; 0; 0; 0; 0;
    0; 0; 0; 0; 114; 101; 107; 111; 114; 100; 98; 111; 120; 0; 0; 0; 0; 0; 0; 0; 0; 0; 0; 0; 0; 0; 0; 0; 0; 0; 0; 0;
    0; 0; 0; 0; 49; 46; 48; 48; 48; 0; 0; 0; 0; 0; 0; 0; 0; 0; 0; 0; 0; 0; 0; 0; 0; 0; 0; 0; 0; 0; 0; 0; 0; 0; 0; 0;
    52; 0; 0; 0; 120; 86; 52; 18; 1; 0; 0; 0; 32; 0; 0; 0; 129; 130; 128; 128; 129; 129; 128; 129; 128; 128; 133;
    130; 128; 0; 0; 0; 0; 0; 0; 0; 0; 0; 0; 0; 0; 0; 0; 0; 0; 0; 0; 0; 0; 0; 0; 0; 0; 0; 0; 0; 56; 108; 0; 0].
Proof. vm_compute. reflexivity. Qed.
Example c45_ex_my :
  enc_setting (mk_setting s_PIONEER s_rekordbox [48; 46; 48; 48; 49] (st_data (default_setting TMy))) = Ok
   [96; 0; 0; 0; 80; 73; 79; 78; 69; 69; 82; 0; 0; 0; 0; 0; 0; 0; 0; 0; 0; 0; 0; 0; 0; 0; 0; 0; 0; 0; 0; 0; 0; 0; 0;
    0; 114; 101; 107; 111; 114; 100; 98; 111; 120; 0; 0; 0; 0; 0; 0; 0; 0; 0; 0; 0; 0; 0; 0; 0; 0; 0; 0; 0; 0; 0; 0;
    0; 48; 46; 48; 48; 49; 0; 0; 0; 0; 0; 0; 0; 0; 0; 0; 0; 0; 0; 0; 0; 0; 0; 0; 0; 0; 0; 0; 0; 0; 0; 0; 0; 40; 0;
    0; 0; 120; 86; 52; 18; 2; 0; 0; 0; 129; 131; 129; 136; 129; 1; 130; 129; 129; 1; 1; 1; 130; 128; 128; 129; 128;
    129; 128; 0; 0; 129; 0; 0; 129; 129; 129; 128; 129; 128; 0; 0; 72; 122; 0; 0].
Proof. vm_compute. reflexivity. Qed.
Example c45_ex_my2 :
  enc_setting (mk_setting s_PIONEER s_rekordbox [48; 46; 48; 48; 49] (st_data (default_setting TMy2))) = Ok
   [96; 0; 0; 0; 80; 73; 79; 78; 69; 69; 82; 0; 0; 0; 0; 0; 0; 0; 0; 0; 0; 0; 0; 0; 0; 0; 0; 0; 0; 0; 0; 0; 0; 0; 0;
    0; 114; 101; 107; 111; 114; 100; 98; 111; 120; 0; 0; 0; 0; 0; 0; 0; 0; 0; 0; 0; 0; 0; 0; 0; 0; 0; 0; 0; 0; 0; 0;
    0; 48; 46; 48; 48; 49; 0; 0; 0; 0; 0; 0; 0; 0; 0; 0; 0; 0; 0; 0; 0; 0; 0; 0; 0; 0; 0; 0; 0; 0; 0; 0; 0; 40; 0;
    0; 0; 129; 128; 131; 131; 129; 0; 0; 0; 0; 0; 128; 129; 133; 0; 0; 0; 0; 0; 0; 0; 0; 0; 0; 0; 0; 0; 0; 0; 0; 0;
    0; 0; 0; 0; 0; 0; 0; 0; 0; 0; 64; 187; 0; 0].
Proof. vm_compute. reflexivity. Qed.

(** ** C46: the checksum

    The two bytes behind the data are, as a little-endian number, the remainder of the covered bytes (as one big-endian
    number, times x^16) on division by x^16 + x^12 + x^5 + 1 over GF(2). *)
Theorem c46_checksum : forall s bs, sdata_ok (st_data s) -> strings_bytes s -> enc_setting s = Ok bs ->
  let t := sd_type (st_data s) in
  let n := 104 + data_size t in
  exists r, slice bs n 2 = le_enc 2 r /\
    is_rem16 (N.shiftl (msg_num (match t with TDjm => slice bs 0 n | _ => slice bs 104 (data_size t) end)) 16) xmodem_poly r.
Proof.
  intros s bs D SB E. destruct (write_total s D) as [(L1 & L2 & L3 & _)|[_ E']]; [|now rewrite E in E'].
  now apply checksum_bytes.
Qed.
Print Assumptions c46_checksum.
(** There is only one such number. *)
Theorem c46_unique : forall m r1 r2, is_rem16 m xmodem_poly r1 -> is_rem16 m xmodem_poly r2 -> r1 = r2.
Proof. exact rem16_unique. Qed.
Print Assumptions c46_unique.
Theorem c46_crc : forall bs, bytes_ok bs -> is_rem16 (N.shiftl (msg_num bs) 16) xmodem_poly (crc16 bs).
Proof. exact crc16_rem. Qed.
Print Assumptions c46_crc.
(** The check value of CRC-16/XMODEM, for "123456789". *)
Example c46_ex : crc16 [49; 50; 51; 52; 53; 54; 55; 56; 57] = 12739.
Proof. reflexivity. Qed.
Example c46_ex_rem : is_rem16 (N.shiftl (msg_num [49; 50; 51]) 16) xmodem_poly (crc16 [49; 50; 51]) /\ crc16 [49; 50; 51] = 38738.
Proof. split; [apply c46_crc; repeat constructor|reflexivity]. Qed.
Example c46_ex_hyp : exists bs, enc_setting (default_setting TDjm) = Ok bs /\ slice bs 156 2 = [242; 83].
Proof. eexists. split; vm_compute; reflexivity. Qed.

(** ** C47: the checksum is not verified *)
Theorem c47_not_verified : forall t buf x y, bytes_ok buf -> x < 256 -> y < 256 ->
  106 + data_size t <= len buf ->
  let buf' := write_at buf (104 + data_size t) [x; y] in
  (forall s p, rd_setting t buf 0 = Ok (s, p) <-> rd_setting t buf' 0 = Ok (s, p)).
Proof.
  assert (forall t buf x y s p, bytes_ok buf -> x < 256 -> y < 256 -> 106 + data_size t <= len buf ->
    rd_setting t buf 0 = Ok (s, p) -> rd_setting t (write_at buf (104 + data_size t) [x; y]) 0 = Ok (s, p)) as K.
  { intros t buf x y s p HB X Y L H. apply setting_inv in H as (-> & d & c & T & D & Z1 & L1 & Z2 & L2 & Z3 & L3 & E & C & H0 & H1 & H2 & H3 & H4 & H5 & H6 & H7); [|easy].
    apply setting_read with (d := d) (c := x + 256 * y).
    assert (len d = data_size t) as LD.
    { destruct (enc_items_ok _ _ (layouts_wf (sd_type (st_data s))) D) as (d' & E' & LD & _). rewrite T, E in E'.
      apply AnlzCodec.Ok_inj in E' as <-. rewrite LD, T. apply layouts_size. }
    assert (forall s0, len (s0 ++ [0]) = len s0 + 1) as LA by (intro; rewrite len_app, len_cons, (@len_nil N); lia).
    unfold setting_at. repeat (split; [first [eassumption | lia | apply has_write_other; [eassumption|left; rewrite ?LA, ?len_le_enc; lia]]|]).
    split.
    - replace (le_enc 2 (x + 256 * y)) with [x; y]; [apply has_write_same'; lia|]. cbn [le_enc]. rewrite (N.mul_comm 256), N.div_add, N.mod_add, (N.div_small x), (N.mod_small x), N.add_0_l, (N.mod_small y) by easy. easy.
    - apply has_write_other; [eassumption|]. right. change (len [x; y]) with 2. lia. }
  intros t buf x y HB X Y L buf' s p. split; [now apply K|]. intro H.
  destruct (getN buf (104 + data_size t)) as [x0|] eqn:G0; [|apply getN_None in G0; lia].
  destruct (getN buf (105 + data_size t)) as [y0|] eqn:G1; [|apply getN_None in G1; lia].
  assert (forall i z, getN buf i = Some z -> z < 256) as GB.
  { intros i z Z. unfold getN in Z. apply nth_error_In in Z. unfold bytes_ok in HB. rewrite Forall_forall in HB. now apply HB. }
  assert (len buf' = len buf) as LB by (unfold buf'; rewrite len_write_at by easy; change (len [x; y]) with 2; lia).
  assert (buf = write_at buf' (104 + data_size t) [x0; y0]) as EB.
  { apply list_ext. intro i.
    rewrite getN_write_at by easy. change (len [x0; y0]) with 2. destruct (N.ltb_spec i (104 + data_size t)) as [I|I].
    - replace (i <? len buf') with true by lia. unfold buf'. rewrite getN_write_at by easy.
      replace (i <? 104 + data_size t) with true by lia. now replace (i <? len buf) with true by lia.
    - destruct (N.ltb_spec i (104 + data_size t + 2)) as [I2|I2].
      + assert (i = 104 + data_size t \/ i = 105 + data_size t) as [->| ->] by lia.
        * now replace (104 + data_size t - (104 + data_size t)) with 0 by lia.
        * now replace (105 + data_size t - (104 + data_size t)) with 1 by lia.
      + unfold buf'. rewrite getN_write_at by easy. change (len [x; y]) with 2. replace (i <? 104 + data_size t) with false by lia.
        now replace (i <? 104 + data_size t + 2) with false by lia. }
  rewrite EB. apply K; [|now apply (GB _ _ G0)|now apply (GB _ _ G1)|lia|exact H].
  apply Forall_forall. intros z Z. apply In_nth_error in Z as [i Z].
  assert (getN buf' (N.of_nat i) = Some z) as GZ by (unfold getN; now rewrite Nnat.Nat2N.id).
  unfold buf' in GZ. rewrite getN_write_at in GZ by easy. destruct (N.of_nat i <? 104 + data_size t).
  - destruct (N.of_nat i <? len buf); [now apply (GB _ _ GZ)|]. injection GZ as <-. easy.
  - destruct (N.of_nat i <? 104 + data_size t + len [x; y]); [|now apply (GB _ _ GZ)].
    unfold getN in GZ. apply nth_error_In in GZ. destruct GZ as [<-|[<-|[]]]; easy.
Qed.
Print Assumptions c47_not_verified.
Example c47_ex : match enc_setting (default_setting TMy) with
  | Ok bs => slice bs 144 2 = [72; 122] /\ rd_setting TMy (write_at bs 144 [0; 0]) 0 = Ok (default_setting TMy, 148)
  | _ => False end.
Proof. vm_compute. split; reflexivity. Qed.

(** ** C48: errors in a window of 16 bits are detected *)
Theorem c48_burst : forall a b r, List.length a = List.length b -> bytes_ok a -> bytes_ok b ->
  burst (xor_bits (bits_of a) (bits_of b)) ->
  is_rem16 (N.shiftl (msg_num a) 16) xmodem_poly r -> ~ is_rem16 (N.shiftl (msg_num b) 16) xmodem_poly r.
Proof. exact burst_rem. Qed.
Print Assumptions c48_burst.
Theorem c48_burst_crc : forall a b, List.length a = List.length b -> burst (xor_bits (bits_of a) (bits_of b)) -> crc16 a <> crc16 b.
Proof. exact burst_detected. Qed.
Print Assumptions c48_burst_crc.
(** So settings that differ in the value of one option have different checksums. *)
Theorem c48_one_option : forall s s' l1 e l2 v1 x y v2 c c',
  setting_ok s -> setting_ok s' -> sd_type (st_data s) = sd_type (st_data s') ->
  st_brand s = st_brand s' -> st_software s = st_software s' -> st_version s = st_version s' ->
  items_of (sd_type (st_data s)) = l1 ++ IOpt e :: l2 -> List.length l1 = List.length v1 ->
  sd_vals (st_data s) = v1 ++ VOpt x :: v2 -> sd_vals (st_data s') = v1 ++ VOpt y :: v2 -> x <> y ->
  checksum s = Ok c -> checksum s' = Ok c' -> c <> c'.
Proof. exact one_option_checksum. Qed.
Print Assumptions c48_one_option.
(** An error that spans two bytes; and 17 bits are too many. *)
Example c48_ex : burst (xor_bits (bits_of [1; 2; 3; 4]) (bits_of [1; 130; 18; 4])) /\ crc16 [1; 2; 3; 4] <> crc16 [1; 130; 18; 4].
Proof.
  split; [|vm_compute; discriminate].
  exists 8%nat, [true; false; false; false; false; false; false; false; false; false; false; true; false; false; false; true], 8%nat.
  split; [reflexivity|]. split; [repeat constructor|]. left. reflexivity.
Qed.
Example c48_ex_17 : crc16 [0; 0; 0; 0] = crc16 [0; 1; 16; 33].
Proof. reflexivity. Qed.

(** ** C49: the length *)
Theorem c49_length : forall s bs, sdata_ok (st_data s) -> enc_setting s = Ok bs ->
  len bs = 108 + match sd_type (st_data s) with TDev => 32 | TDjm => 52 | TMy => 40 | TMy2 => 40 end.
Proof.
  intros s bs D E. destruct (write_total s D) as [(L1 & L2 & L3 & _)|[_ E']]; [|now rewrite E in E'].
  assert (setting_ok s) as OK by easy. destruct (enc_setting_front s OK) as (f & F & E').
  rewrite E in E'. apply AnlzCodec.Ok_inj in E' as ->. pose proof (len_front s f OK F) as LF.
  rewrite !len_app, !len_le_enc, LF. unfold data_size. lia.
Qed.
Print Assumptions c49_length.
(** The length of the string block and of the data are where readers expect them. *)
Theorem c49_length_fields : forall s bs, sdata_ok (st_data s) -> enc_setting s = Ok bs ->
  slice bs 0 4 = le_enc 4 96 /\ slice bs 100 4 = le_enc 4 (len bs - 108).
Proof.
  intros s bs D E. pose proof (c49_length s bs D E) as L.
  destruct (write_total s D) as [(L1 & L2 & L3 & _)|[_ E']]; [|now rewrite E in E'].
  assert (setting_ok s) as OK by easy. destruct (enc_setting_front s OK) as (f & F & E').
  rewrite E in E'. apply AnlzCodec.Ok_inj in E' as ->. destruct (enc_front_ok s OK) as (d & _ & _ & _ & F').
  rewrite F in F'. apply AnlzCodec.Ok_inj in F' as ->. rewrite <- !app_assoc in *. split.
  - unfold slice. change (dropN 0 ?x) with x. now rewrite takeN_app by now rewrite len_le_enc.
  - rewrite L. set (h := le_enc 4 96 ++ pad_to 32 (st_brand s ++ [0]) ++ pad_to 32 (st_software s ++ [0]) ++ pad_to 32 (st_version s ++ [0])).
    assert (len h = 100) as LH by (unfold h; rewrite !len_app, !len_le_enc, !len_pad32 by easy; lia).
    unfold slice. match goal with |- takeN 4 (dropN 100 (le_enc 4 96 ++ _ ++ _ ++ _ ++ ?r)) = _ =>
      replace (le_enc 4 96 ++ pad_to 32 (st_brand s ++ [0]) ++ pad_to 32 (st_software s ++ [0]) ++ pad_to 32 (st_version s ++ [0]) ++ r)
        with (h ++ r) by (unfold h; now rewrite <- !app_assoc) end.
    rewrite dropN_app by easy. rewrite takeN_app by now rewrite len_le_enc. f_equal. destruct (sd_type (st_data s)); reflexivity.
Qed.
Print Assumptions c49_length_fields.
Example c49_ex : map (fun t => match enc_setting (default_setting t) with Ok bs => len bs | _ => 0 end) [TDev; TDjm; TMy; TMy2] = [140; 160; 148; 148].
Proof. vm_compute. reflexivity. Qed.

(** ** C50: option codes *)
Theorem c50_codes : forall e, In e all_enums ->
  (forall v c, In (v, c) (se_vars e) -> c < 256 /\ se_code e v = Some c /\ se_variant e c = Some v) /\
  (forall v c, se_code e v = Some c <-> se_variant e c = Some v) /\
  (forall v v' c, se_code e v = Some c -> se_code e v' = Some c -> v = v') /\
  (forall c, (forall v, ~ In (v, c) (se_vars e)) -> se_variant e c = None) /\
  In (se_default e) (map fst (se_vars e)).
Proof.
  intros e I. pose proof all_enums_wf as W. rewrite forallb_forall in W. specialize (W e I).
  split; [|split; [|split; [|split]]].
  - intros v c H. split; [now apply (enum_code_lt e (v, c))|]. split; [now apply in_se_code|now apply in_se_variant].
  - intros. now apply code_variant.
  - intros v v' c H H'. apply (code_variant e v c W) in H. apply (code_variant e v' c W) in H'. congruence.
  - intros c H. destruct (se_variant e c) as [v|] eqn:V; [|easy]. now apply se_variant_in, H in V.
  - unfold enum_wfb in W. apply andb_true_iff in W as [_ W]. apply existsb_exists in W as (p & P & E).
    apply String.eqb_eq in E as <-. now apply in_map.
Qed.
Print Assumptions c50_codes.
(** All options of all files are among them. *)
Theorem c50_all : forall t e, In (IOpt e) (items_of t) -> In e all_enums.
Proof.
  intros t e.
  destruct t; cbn [items_of dev_items djm_items my_items my2_items In fixed free]; intro H;
    repeat (destruct H as [H|H]; [try discriminate H; injection H as <-; unfold all_enums; cbn [In]; tauto|]); destruct H.
Qed.
Print Assumptions c50_all.
(** In an accepted file the byte of each option is a code, and the option is reported as the choice with this code. *)
Theorem c50_accepted : forall t buf s p l1 e l2, bytes_ok buf -> rd_setting t buf 0 = Ok (s, p) ->
  items_of t = l1 ++ IOpt e :: l2 ->
  exists v1 x v2 c, sd_vals (st_data s) = v1 ++ VOpt x :: v2 /\ List.length v1 = List.length l1 /\
    getN buf (104 + fold_right (fun i n => item_size i + n) 0 l1) = Some c /\ se_variant e c = Some x.
Proof. exact option_byte. Qed.
Print Assumptions c50_accepted.
(** So any other byte makes the file be refused. *)
Theorem c50_rejected : forall t buf l1 e l2 c, bytes_ok buf -> items_of t = l1 ++ IOpt e :: l2 ->
  getN buf (104 + fold_right (fun i n => item_size i + n) 0 l1) = Some c ->
  (forall v, ~ In (v, c) (se_vars e)) -> exists err, rd_setting t buf 0 = Err err.
Proof.
  intros t buf l1 e l2 c HB L G N. destruct (rd_setting t buf 0) as [[s p]|err|] eqn:R.
  - destruct (option_byte _ _ _ _ _ _ _ HB R L) as (_ & x & _ & c' & _ & _ & G' & V). rewrite G in G'.
    assert (c' = c) as -> by congruence. exfalso. apply se_variant_in in V. now apply (N x).
  - eauto.
  - exfalso. now apply (setting_no_panic t buf 0).
Qed.
Print Assumptions c50_rejected.
(** There are 46 options with 164 choices. *)
Example c50_ex : (List.length all_enums, fold_right (fun e n => (List.length (se_vars e) + n)%nat) 0%nat all_enums) = (46, 164)%nat
  /\ se_code e_Language "Japanese" = Some 139 /\ se_variant e_Language 147 = None /\ se_variant e_JogMode 128 = Some "CDJ"%string.
Proof. vm_compute. repeat split; reflexivity. Qed.
Example c50_ex_rejected : match enc_setting (default_setting TMy) with
  | Ok bs => rd_setting TMy (write_at bs 112 [130]) 0 = Err ENoVariant /\ rd_setting TMy (write_at bs 112 [128]) 0 <> Err ENoVariant
  | _ => False end.
Proof. vm_compute. split; [reflexivity|discriminate]. Qed.
