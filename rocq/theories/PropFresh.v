(** * Property C100: settings files made from scratch *)
From Coq Require Import NArith ZArith List Bool String Lia.
From Coq Require Import ZifyBool ZifyNat ZifyN.
From Verif Require Import Base BaseFacts AnlzCodec Crc CrcFacts Setting SettingFacts SettingSpec Layout LayoutSetting Device DeviceFacts Show ShowFacts Tune PropSetting.
Import ListNotations.
Open Scope N_scope.

(** ** Spec *)
(** The data of the files in /repo/data/complete_export/empty/PIONEER, which rekordbox wrote: bytes 104 to the checksum. *)
Definition shipped (t : stype) : list N :=
  match t with
  | TDev => [120; 86; 52; 18; 1; 0; 0; 0; 1; 1; 1; 1; 1; 1] ++ repeat 0 18
  | TDjm => [120; 86; 52; 18; 1; 0; 0; 0; 32; 0; 0; 0; 129; 130; 128; 128; 129; 129; 128; 129; 128; 128; 133; 130; 128] ++ repeat 0 27
  | TMy => [120; 86; 52; 18; 2; 0; 0; 0; 129; 131; 129; 136; 129; 1; 130; 129; 129; 1; 1; 1; 130; 128; 128; 129; 128; 129; 128; 0; 0; 129; 0; 0; 129; 129; 129; 128; 129; 128; 0; 0]
  | TMy2 => [129; 128; 131; 131; 129; 0; 0; 0; 0; 0; 128; 129; 133] ++ repeat 0 27
  end.
(** Their brands; "rekordbox" and the version that the crate gives, "6.6.1". *)
Definition brand_of (t : stype) : list N :=
  match t with
  | TDev => [80; 73; 79; 78; 69; 69; 82; 32; 68; 74]
  | TDjm => [80; 105; 111; 110; 101; 101; 114; 68; 74]
  | _ => [80; 73; 79; 78; 69; 69; 82]
  end.
Definition text_rekordbox : list N := [114; 101; 107; 111; 114; 100; 98; 111; 120].
Definition text_661 : list N := [54; 46; 54; 46; 49].
(** A text in a field of 32 bytes. *)
Definition field32 (x : list N) : list N := x ++ repeat 0 (32 - List.length x).
Definition small_text (x : list N) : Prop := len x <= 31 /\ Forall (fun c => 0 < c /\ c < 256) x.

(** ** Proofs *)
Lemma field32_pad x : len x <= 31 -> pad_to 32 (x ++ [0]) = field32 x.
Proof.
  intro L. unfold pad_to, field32, zeros. rewrite <- app_assoc. f_equal. rewrite len_app. change (len [0]) with 1. unfold len in *.
  replace (32 - List.length x)%nat with (S (N.to_nat (32 - (N.of_nat (List.length x) + 1))))%nat by lia. reflexivity.
Qed.
Lemma default_data t : enc_items (items_of t) (default_vals (items_of t)) = Ok (shipped t).
Proof. destruct t; vm_compute; reflexivity. Qed.

(** C100.  A program makes the default settings of a type, gives them texts, assigns options and writes them.  The file is: the three texts in their fields; the data of
    the file that rekordbox ships, apart from the assigned options, which have the bytes of the last values assigned; the checksum; two zeros.  It is read back as the settings. *)
Theorem c100_bytes : forall t brand software version l, small_text brand -> small_text software -> small_text version -> Forall (legal t) l ->
  let s := tune l (mk_setting brand software version (st_data (default_setting t))) in
  exists data r, enc_setting s = Ok ([96; 0; 0; 0] ++ field32 brand ++ field32 software ++ field32 version ++ [len (shipped t); 0; 0; 0] ++ data ++ le_enc 2 r ++ [0; 0]) /\
    rd_setting t ([96; 0; 0; 0] ++ field32 brand ++ field32 software ++ field32 version ++ [len (shipped t); 0; 0; 0] ++ data ++ le_enc 2 r ++ [0; 0]) 0 = Ok (s, 108 + len data) /\
    len data = len (shipped t) /\
    (forall j, j < len data ->
      (exists f v e c, In (f, 104 + j) (field_table t) /\ final l f = Some v /\ meaning t (104 + j) e c v /\ getN data j = Some c) \/
      ((forall f, In (f, 104 + j) (field_table t) -> final l f = None) /\ getN data j = getN (shipped t) j)) /\
    is_rem16 (N.shiftl (msg_num (match t with
      | TDjm => [96; 0; 0; 0] ++ field32 brand ++ field32 software ++ field32 version ++ [len (shipped t); 0; 0; 0] ++ data
      | _ => data end)) 16) xmodem_poly r.
Proof.
  intros t brand software version l [LB NB] [LS NS] [LV NV] HL s. set (s0 := mk_setting brand software version (st_data (default_setting t))) in *.
  assert (forall x, Forall (fun c => 0 < c /\ c < 256) x -> Forall (fun c => c <> 0) x /\ bytes_ok x) as SM.
  { intros x H. split; (eapply Forall_impl; [|exact H]); cbv beta; intros; lia. }
  destruct (SM _ NB) as [ZB BB]. destruct (SM _ NS) as [ZS BS]. destruct (SM _ NV) as [ZV BV]. clear SM.
  destruct (c45_ex t) as (D0 & _). assert (setting_ok s0) as OK0 by easy.
  destruct (enc_setting_front s0 OK0) as (f0 & F0 & E0). set (b0 := f0 ++ _ ++ _) in E0.
  assert (sd_type (st_data s0) = t) as T0 by reflexivity.
  assert (rd_setting t b0 0 = Ok (s0, len b0)) as R0 by (rewrite <- T0, (setting_wr s0 b0 0 b0 OK0 E0); [now rewrite (proj2 (cut_strings_id s0))|exists [], []; now rewrite app_nil_r]).
  assert (bytes_ok b0) as B0.
  { apply Forall_app. split; [now apply (front_bytes_ok s0)|]. apply Forall_app. split; apply le_enc_ok. }
  destruct (tune_file t b0 s0 (len b0) l B0 R0 HL) as (bs & E & LN & BK & RD & BY). fold s in E, RD.
  destruct (tune_same l s0) as (TT & TB & TS & TV). fold s in TB, TS, TV, TT. rewrite T0 in TT. cbn [s0 st_brand st_software st_version] in TB, TS, TV.
  assert (setting_ok s) as OK.
  { destruct (setting_inv _ _ _ _ _ BK RD) as (_ & dd & cc & HA). unfold setting_at in HA. unfold setting_ok. rewrite TB, TS, TV. repeat split; try assumption. apply HA. }
  destruct (enc_setting_front s OK) as (f & F & E'). destruct (enc_front_ok s OK) as (d & HD & LD & OD & F'). rewrite F in F'. apply AnlzCodec.Ok_inj in F'.
  destruct (enc_front_ok s0 OK0) as (d0 & HD0 & LD0 & OD0 & F0'). rewrite F0 in F0'. apply AnlzCodec.Ok_inj in F0'.
  rewrite T0 in HD0, LD0, F0'. cbn [s0 st_data default_setting sd_vals] in HD0. rewrite default_data in HD0. apply AnlzCodec.Ok_inj in HD0. subst d0.
  rewrite TB, TS, TV, TT, !field32_pad in F' by assumption. rewrite TT in LD, HD, E'. cbn [s0 st_brand st_software st_version] in F0'.
  assert (data_size t = len (shipped t)) as DS by now destruct t. rewrite DS in LD, F'.
  change (le_enc 4 96) with [96; 0; 0; 0] in F'. replace (le_enc 4 (len (shipped t))) with [len (shipped t); 0; 0; 0] in F' by now destruct t.
  exists d, (crc16 (covered t f)). rewrite E in E'. apply AnlzCodec.Ok_inj in E'. change (le_enc 2 0) with [0; 0] in E'.
  assert (bs = [96; 0; 0; 0] ++ field32 brand ++ field32 software ++ field32 version ++ [len (shipped t); 0; 0; 0] ++ d ++ le_enc 2 (crc16 (covered t f)) ++ [0; 0]) as EB.
  { rewrite E', F'. rewrite <- !app_assoc. reflexivity. }
  assert (forall x, len x <= 31 -> len (field32 x) = 32) as L32 by (intros x LX; rewrite <- field32_pad by easy; now apply len_pad32).
  assert (len b0 = 108 + len d) as LBD.
  { rewrite <- LN, EB. rewrite !len_app, !L32, len_le_enc by easy. change (len [96; 0; 0; 0]) with 4. change (len [len (shipped t); 0; 0; 0]) with 4. change (len [0; 0]) with 2. lia. }
  rewrite <- EB. split; [exact E|]. split; [now rewrite <- LBD|]. split; [exact LD|]. split.
  - intros j HJ. assert (size_of t = len (shipped t)) as SZ by now destruct t.
    assert (forall ff dd c rest, len ff = 104 -> getN ((ff ++ dd) ++ c ++ rest) (104 + j) = if j <? len dd then getN dd j else getN ((c : list N) ++ rest) (j - len dd)) as GA.
    { intros ff dd c rest LF. rewrite getN_app, len_app, LF. replace (104 + j <? 104 + len dd) with (j <? len dd) by lia. destruct (j <? len dd) eqn:J.
      - rewrite getN_app, LF. replace (104 + j <? 104) with false by lia. f_equal. lia.
      - f_equal. lia. }
    assert (getN bs (104 + j) = getN d j) as G1.
    { rewrite E', F'. rewrite !app_assoc. rewrite <- (app_assoc (_ ++ d)). rewrite GA; [now replace (j <? len d) with true by lia|].
      rewrite !len_app, !L32 by easy. reflexivity. }
    assert (getN b0 (104 + j) = getN (shipped t) j) as G0.
    { unfold b0. rewrite F0'. rewrite !app_assoc. rewrite <- (app_assoc (_ ++ shipped t)). rewrite GA; [now replace (j <? len (shipped t)) with true by lia|].
      rewrite !len_app, !len_pad32, !len_le_enc by easy. reflexivity. }
    destruct (BY (104 + j) ltac:(lia)) as [[P _]|[P|[(fn & v & e & c & P1 & P2 & P3 & P4)|[P1 P2]]]].
    + unfold in_padding in P. cbn [s0 st_brand st_software st_version] in P. lia.
    + lia.
    + left. exists fn, v, e, c. now rewrite <- G1.
    + right. split; [exact P1|]. now rewrite <- G1, <- G0.
  - assert (bytes_ok f) as BF by (apply (front_bytes_ok s f OK); [unfold strings_bytes; rewrite TB, TS, TV; easy|exact F]).
    assert (dropN 104 f = d) as DF.
    { rewrite F'. replace ([96; 0; 0; 0] ++ field32 brand ++ field32 software ++ field32 version ++ [len (shipped t); 0; 0; 0] ++ d)
        with (([96; 0; 0; 0] ++ field32 brand ++ field32 software ++ field32 version ++ [len (shipped t); 0; 0; 0]) ++ d) by (now rewrite <- !app_assoc).
      apply dropN_app. rewrite !len_app, !L32 by easy. reflexivity. }
    destruct t; cbn [covered] in *; rewrite ?DF; try (apply crc16_rem; assumption). rewrite <- F'. now apply crc16_rem.
Qed.
Print Assumptions c100_bytes.

(** Without assignments, and with the texts the crate gives. *)
Theorem c100_default : forall t, exists r, enc_setting (default_setting t) =
    Ok ([96; 0; 0; 0] ++ field32 (brand_of t) ++ field32 text_rekordbox ++ field32 text_661 ++ [len (shipped t); 0; 0; 0] ++ shipped t ++ le_enc 2 r ++ [0; 0]).
Proof. intro t. exists (match t with TDev => 0xd016 | TDjm => 0x53f2 | TMy => 0x7a48 | TMy2 => 0xbb40 end). destruct t; vm_compute; reflexivity. Qed.
Print Assumptions c100_default.
(** Texts that do not fit are refused, whatever is assigned. *)
Theorem c100_refused : forall t brand software version l, Forall (legal t) l -> 31 < len brand \/ 31 < len software \/ 31 < len version ->
  enc_setting (tune l (mk_setting brand software version (st_data (default_setting t)))) = Err EAssertFail.
Proof.
  intros t brand software version l HL H. set (s := tune l _).
  assert (forall l0 u v, st_data u = st_data v -> st_data (tune l0 u) = st_data (tune l0 v)) as W.
  { clear. induction l0 as [|y l0 IH]; intros u v E; [exact E|]. cbn [tune fold_left]. apply IH. unfold assign. cbn [st_data]. now rewrite E. }
  assert (sdata_ok (st_data s)) as D.
  { unfold s. rewrite (W l _ (default_setting t)) by reflexivity. destruct (c45_ex t) as (D0 & _). assert (setting_ok (default_setting t)) as OK by (destruct t; easy).
    destruct (enc_front_ok _ OK) as (d & HD & _). now destruct (tune_bytes l (default_setting t) d OK HL HD) as ((_ & _ & _ & H1) & _). }
  destruct (write_total s D) as [(L1 & L2 & L3 & _)|[_ E]]; [|exact E]. destruct (tune_same l (mk_setting brand software version (st_data (default_setting t)))) as (_ & TB & TS & TV).
  fold s in TB, TS, TV. rewrite TB in L1. rewrite TS in L2. rewrite TV in L3. cbn [st_brand st_software st_version] in *. lia.
Qed.
Print Assumptions c100_refused.

(** ** Example: the file /repo/data/mysetting2/beatjumpbeatvalue_64/MYSETTING2.DAT, made from scratch *)
Local Open Scope string_scope.
Local Open Scope N_scope.
Definition c100_acts : list (string * string) := [("beat_jump_beat_value", "OneBeat"); ("beat_jump_beat_value", "SixtyfourBeat")].
Example c100_example : Forall (legal TMy2) c100_acts /\ small_text (brand_of TMy2) /\ small_text text_rekordbox /\ small_text [48; 46; 48; 48; 49] /\
  enc_setting (tune c100_acts (mk_setting (brand_of TMy2) text_rekordbox [48; 46; 48; 48; 49] (st_data (default_setting TMy2)))) =
    Ok ([96; 0; 0; 0; 80; 73; 79; 78; 69; 69; 82] ++ repeat 0 25 ++ [114; 101; 107; 111; 114; 100; 98; 111; 120] ++ repeat 0 23 ++ [48; 46; 48; 48; 49] ++ repeat 0 27 ++
      [40; 0; 0; 0; 129; 128; 131; 131; 129; 0; 0; 0; 0; 0; 128; 129; 135] ++ repeat 0 27 ++ [104; 242; 0; 0])%list.
Proof.
  split; [|split; [|split; [|split]]].
  - assert (forall c v, In (c, v) [(128, "HalfBeat"); (129, "OneBeat"); (130, "TwoBeat"); (131, "FourBeat"); (132, "EightBeat"); (133, "SixteenBeat"); (134, "ThirtytwoBeat"); (135, "SixtyfourBeat")] -> legal TMy2 ("beat_jump_beat_value", v)) as K.
    { intros c v H. exists 116, "BeatJumpBeatValue", c. split; [cbn; tauto|]. eexists. split; [cbn; tauto|exact H]. }
    constructor; [apply (K 129); cbn; tauto|]. constructor; [apply (K 135); cbn; tauto|constructor].
  - split; [now vm_compute|]. repeat constructor.
  - split; [now vm_compute|]. repeat constructor.
  - split; [now vm_compute|]. repeat constructor.
  - vm_compute. reflexivity.
Qed.
