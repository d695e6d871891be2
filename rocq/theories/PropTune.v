(** * Property C81: changing options in settings files *)
From Coq Require Import NArith ZArith List Bool String Lia.
From Coq Require Import ZifyBool ZifyNat ZifyN.
From Verif Require Import Base BaseFacts AnlzCodec Crc CrcFacts Setting SettingFacts SettingSpec Layout LayoutSetting Device DeviceFacts Show ShowFacts Tune.
Import ListNotations.
Open Scope N_scope.

(** C81.  A program reads a settings file, assigns options and writes the file.  This succeeds, and what it writes is read back as what the program had.  The bytes of the
    assigned options are those of the last values assigned; the checksum changes; what is behind the ends of the three texts becomes zero; all other bytes stay. *)
Theorem c81_bytes : forall t buf s p l, bytes_ok buf -> rd_setting t buf 0 = Ok (s, p) -> Forall (legal t) l ->
  exists bs, enc_setting (tune l s) = Ok bs /\ len bs = p /\ bytes_ok bs /\ rd_setting t bs 0 = Ok (tune l s, p) /\
    forall j, j < p -> (in_padding s j /\ getN bs j = Some 0) \/ (104 + size_of t <= j /\ j < 106 + size_of t) \/
      (exists f v e c, In (f, j) (field_table t) /\ final l f = Some v /\ meaning t j e c v /\ getN bs j = Some c) \/
      ((forall f, In (f, j) (field_table t) -> final l f = None) /\ getN bs j = getN buf j).
Proof. exact tune_file. Qed.
Print Assumptions c81_bytes.
(** A file that was written by the crate changes in the assigned options and the checksum only. *)
Theorem c81_written : forall s buf l bs j, sdata_ok (st_data s) -> strings_nz s -> strings_bytes s -> enc_setting s = Ok buf -> Forall (legal (sd_type (st_data s))) l -> enc_setting (tune l s) = Ok bs ->
  j < 104 + size_of (sd_type (st_data s)) \/ 106 + size_of (sd_type (st_data s)) <= j -> (forall f, In (f, j) (field_table (sd_type (st_data s))) -> final l f = None) -> getN bs j = getN buf j.
Proof.
  intros s buf l bs j D NZ SB E HL E' HJ HN. destruct (write_total s D) as [(L1 & L2 & L3 & _)|[_ X]]; [|now rewrite E in X]. assert (setting_ok s) as OK by easy.
  assert (rd_setting (sd_type (st_data s)) buf 0 = Ok (s, len buf)) as HR by (rewrite (setting_wr s buf 0 buf OK E); [now rewrite (proj2 (cut_strings_id s) NZ)|exists [], []; now rewrite app_nil_r]).
  assert (bytes_ok buf) as HB.
  { destruct (enc_setting_front s OK) as (f & F & W). rewrite E in W. apply AnlzCodec.Ok_inj in W as ->. apply Forall_app. split; [now apply (front_bytes_ok s)|]. apply Forall_app. split; apply le_enc_ok. }
  destruct (tune_file _ _ _ _ [] HB HR (Forall_nil _)) as (b0 & E0 & L0 & _ & _ & B0). change (tune [] s) with s in E0. rewrite E in E0. apply AnlzCodec.Ok_inj in E0 as <-.
  destruct (tune_file _ _ _ _ l HB HR HL) as (b1 & E1 & LB1 & _ & _ & B1). rewrite E' in E1. apply AnlzCodec.Ok_inj in E1 as <-.
  destruct (N.lt_ge_cases j (len buf)) as [LJ|LJ]; [|rewrite !(proj2 (getN_None _ _)) by lia; reflexivity].
  destruct (B1 j LJ) as [[P1 P2]|[P|[(f & v & e & c & P1 & P2 & _)|[_ P]]]]; [|lia|exfalso; rewrite (HN f P1) in P2; discriminate|exact P].
  destruct (B0 j LJ) as [[_ Q]|[Q|[(f & v & e & c & _ & Q & _)|_]]]; [congruence|lia|discriminate|].
  rewrite P2. symmetry. destruct (enc_setting_front s OK) as (f & F & W). rewrite E in W. apply AnlzCodec.Ok_inj in W as ->. destruct (enc_front_ok s OK) as (d & HD & _). rewrite getN_app, (len_front s f OK F).
  assert (j < 100) as J by (unfold in_padding in P1; lia). replace (j <? 104 + data_size (sd_type (st_data s))) with true by lia. rewrite (front_bytes s f d j OK F HD). unfold front_byte, in_padding in *.
  destruct (j <? 4) eqn:J4; [lia|]. destruct (j <? 36) eqn:J36; [replace (j - 4 <=? len (st_brand s)) with false by lia; easy|].
  destruct (j <? 68) eqn:J68; [replace (j - 36 <=? len (st_software s)) with false by lia; easy|]. destruct (j <? 100) eqn:J100; [replace (j - 68 <=? len (st_version s)) with false by lia; easy|lia].
Qed.
Print Assumptions c81_written.
(** Then [list-settings] shows the new values on the lines of these options, and all other lines as before. *)
Theorem c81_listing : forall w t fs fs' buf bs s p l text, bytes_ok buf -> fs (setting_file t) = FsBytes buf -> rd_setting t buf 0 = Ok (s, p) -> Forall (legal t) l ->
  enc_setting (tune l s) = Ok bs -> fs' (setting_file t) = FsBytes bs -> (forall t', t' <> t -> fs' (setting_file t') = fs (setting_file t')) -> list_settings w fs = Ok text ->
  exists text', list_settings w fs' = Ok text' /\ Forall2 (fun x y => line_name y = line_name x /\
    match final l (line_name x) with Some v => exists o e c, In (line_name x, o) (field_table t) /\ meaning t o e c v /\ show_option w e v = Some (line_value y) | None => y = x end) (lines_of text) (lines_of text').
Proof. exact tune_listing. Qed.
Print Assumptions c81_listing.

(** ** Example *)
Local Open Scope string_scope.
Local Open Scope N_scope.
Definition c81_acts : list (string * string) := [("language", "German"); ("quantize", "Off"); ("language", "French")].
Definition c81_buf : list N := match enc_setting (default_setting TMy) with Ok bs => bs | _ => [] end.
Example c81_example : rd_setting TMy c81_buf 0 = Ok (default_setting TMy, 148) /\ bytes_ok c81_buf /\ Forall (legal TMy) c81_acts /\ final c81_acts "language" = Some "French" /\
  exists bs, enc_setting (tune c81_acts (default_setting TMy)) = Ok bs /\ (getN c81_buf 116, getN bs 116) = (Some 129, Some 130) /\ (getN c81_buf 114, getN bs 114) = (Some 129, Some 128) /\
    exists text l, list_settings First (fun f => if String.eqb f "MYSETTING.DAT" then FsBytes bs else FsError) = Ok text /\ In l (lines_of text) /\ l = "Language:                       Français".
Proof.
  assert (forall f v, existsb (fun q => String.eqb (fst q) f && existsb (fun r => (snd (fst r) =? snd q) && existsb (fun x => String.eqb (snd x) v) (snd r)) (option_table TMy)) (field_table TMy) = true -> legal TMy (f, v)) as K.
  { intros f v H. apply existsb_exists in H as ([g o] & H1 & H2). cbn [fst snd] in H2. apply andb_true_iff in H2 as [H2 H3]. apply String.eqb_eq in H2 as ->.
    apply existsb_exists in H3 as ([[e o'] ms] & H3 & H4). cbn [fst snd] in H4. apply andb_true_iff in H4 as [H4 H5]. apply N.eqb_eq in H4 as ->. apply existsb_exists in H5 as ([c v'] & H5 & H6). cbn [snd] in H6. apply String.eqb_eq in H6 as ->.
    exists o, e, c. split; [exact H1|]. exists ms. now split. }
  split; [vm_compute; reflexivity|]. split; [apply Forall_forall; intros x Hx; assert (forallb (fun x => x <? 256) c81_buf = true) as W by (vm_compute; reflexivity); rewrite forallb_forall in W; specialize (W x Hx); lia|].
  split; [repeat constructor; apply K; vm_compute; reflexivity|]. split; [reflexivity|].
  destruct (enc_setting (tune c81_acts (default_setting TMy))) as [bs| |] eqn:E; [|vm_compute in E; discriminate|vm_compute in E; discriminate]. exists bs. split; [reflexivity|].
  vm_compute in E. injection E as <-. split; [vm_compute; reflexivity|]. split; [vm_compute; reflexivity|].
  destruct (list_settings _ _) as [text| |] eqn:E; [|vm_compute in E; discriminate|vm_compute in E; discriminate]. exists text, "Language:                       Français". split; [reflexivity|]. split; [|reflexivity].
  vm_compute in E. injection E as <-. vm_compute. tauto.
Qed.
