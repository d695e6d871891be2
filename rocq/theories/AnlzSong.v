(** * Song structures: the key, detection of encryption, reading back *)
From Coq Require Import NArith ZArith List Bool Lia.
From Coq Require Import ZifyBool ZifyNat ZifyN.
From Verif Require Import Base BaseFacts Utf UtfFacts Str Schema SchemaFacts Xor XorFacts Anlz AnlzFacts AnlzSpec AnlzCodec.
Import ListNotations.
Open Scope N_scope.
Ltac Zify.zify_post_hook ::= Z.div_mod_to_equations.

(** The key for [n] phrases. *)
Definition song_key (n : N) : list N := map (fun x => (x + n) mod 256) key_data.
(** The number of phrases for which the first [k] bytes of the key can be computed with overflow checks. *)
Definition key_fits (b : build) (n k : N) : Prop :=
  match b with Debug => Forall (fun x => x + n < 65536) (takeN k key_data) | Release => True end.

Lemma key_byte_ok b n x : match b with Debug => x + n < 65536 | Release => True end -> key_byte b n x = Ok ((x + n) mod 256).
Proof.
  intro H. unfold key_byte, wadd. change (2 ^ 16) with 65536. destruct (x + n <? 65536) eqn:E; [easy|].
  destruct b; [lia|]. cbn [ovf res_bind]. f_equal. change (2 ^ 16) with 65536. lia.
Qed.
Lemma key_byte_panic n x : 65536 <= x + n -> key_byte Debug n x = Panic.
Proof. intro H. unfold key_byte, wadd. change (2 ^ 16) with 65536. now replace (x + n <? 65536) with false by lia. Qed.
Lemma all_ok_map {A B} (f : A -> res B) (g : A -> B) : forall l, (forall x, In x l -> f x = Ok (g x)) -> all_ok (map f l) = Ok (map g l).
Proof.
  induction l as [|x l IH]; intro H; [easy|]. cbn [map all_ok]. rewrite (H x) by now left. cbn [res_bind].
  rewrite IH; [easy|]. intros y HY. apply H. now right.
Qed.
Lemma get_key_ok b n k : key_fits b n k -> get_key b n k = Ok (takeN k (song_key n)).
Proof.
  intro H. unfold get_key. rewrite (all_ok_map _ (fun x => (x + n) mod 256)).
  - f_equal. unfold song_key, takeN. symmetry. apply firstn_map.
  - intros x HX. apply key_byte_ok. unfold key_fits in H. destruct b; [|easy]. rewrite Forall_forall in H. now apply H.
Qed.
Lemma get_key_19 b n : key_fits b n 19 -> get_key b n 19 = Ok (song_key n).
Proof. intro H. rewrite get_key_ok by easy. reflexivity. Qed.
Lemma key_fits_2 b n : (match b with Debug => n <= 65310 | Release => True end) -> key_fits b n 2.
Proof. intro H. unfold key_fits. destruct b; [|easy]. repeat constructor; lia. Qed.
Lemma key_fits_19 b n : (match b with Debug => n <= 65285 | Release => True end) -> key_fits b n 19.
Proof. intro H. unfold key_fits. destruct b; [|easy]. repeat constructor; lia. Qed.
Lemma all_ok_panic {A B} (f : A -> res B) : forall l, (forall x, f x <> Panic -> exists y, f x = Ok y) -> (exists x, In x l /\ f x = Panic) -> all_ok (map f l) = Panic.
Proof.
  intros l HF. induction l as [|x l IH]; intros (y & HI & HP); [easy|]. cbn [map all_ok]. destruct (f x) as [a|e|] eqn:EX; cbn [res_bind]; [| |easy].
  - destruct HI as [->|HI]; [congruence|]. rewrite IH; [easy|]. now exists y.
  - destruct (HF x) as (z & E); [now rewrite EX|congruence].
Qed.
Lemma key_byte_shape b n x : key_byte b n x <> Panic -> exists y, key_byte b n x = Ok y.
Proof. unfold key_byte, wadd, ovf. destruct (_ <? _); cbn [res_bind]; [eauto|]. destruct b; cbn [res_bind]; [easy|eauto]. Qed.
Lemma get_key_2_panic n : 65310 < n -> get_key Debug n 2 = Panic.
Proof.
  intro H. apply all_ok_panic; [apply key_byte_shape|]. exists 0xE1. split; [right; left; reflexivity|]. apply key_byte_panic. lia.
Qed.
Lemma get_key_19_panic n : 65285 < n -> get_key Debug n 19 = Panic.
Proof.
  intro H. apply all_ok_panic; [apply key_byte_shape|]. exists 0xFA. split; [do 3 right; left; reflexivity|]. apply key_byte_panic. lia.
Qed.
Lemma get_key_inv b n k key : get_key b n k = Ok key -> (forall x, In x (takeN k key_data) -> key_byte b n x = Ok ((x + n) mod 256)) .
Proof.
  intros H x HX. unfold get_key in H. destruct b; [|now apply key_byte_ok]. apply key_byte_ok.
  destruct (N.lt_ge_cases (x + n) 65536) as [L|L]; [easy|]. exfalso. rewrite all_ok_panic in H; [discriminate|apply key_byte_shape|].
  exists x. split; [easy|]. now apply key_byte_panic.
Qed.
Lemma get_key_val b n k key : get_key b n k = Ok key -> key = takeN k (song_key n).
Proof.
  intro H. pose proof (get_key_inv b n k key H) as HI. unfold get_key in H. rewrite (all_ok_map _ _ _ HI) in H. apply Ok_inj in H as <-.
  unfold song_key, takeN. symmetry. apply firstn_map.
Qed.
Lemma song_key_nonempty n : song_key n <> [].
Proof. easy. Qed.
Lemma song_key_bytes n : bytes_ok (song_key n).
Proof. unfold song_key, bytes_ok. apply Forall_forall. intros y HY. apply in_map_iff in HY as (x & <- & _). apply N.mod_lt. easy. Qed.

(** ** Detection *)
Definition mood_code (x y : N) : N := 256 * x + y.
Definition valid_mood (m : N) : Prop := m = 1 \/ m = 2 \/ m = 3.
Definition key0 (n : N) : N := (0xCB + n) mod 256.
Definition key1 (n : N) : N := (0xE1 + n) mod 256.
Lemma rd_mood x y : x < 256 -> y < 256 ->
  match rd_plain [mood] [x; y] 0 with Ok _ => Ok true | Err _ => Ok false | Panic => Panic end = Ok (mem (mood_code x y) [1; 2; 3]).
Proof.
  intros HX HY. unfold rd_plain. cbn [rd_fields]. unfold bind at 1. cbn [rd_field mood]. unfold bind at 1 2. cbn [rd_int].
  unfold rd_be, bind. change (rd_bytes (N.of_nat 2) [x; y] 0) with (@Ok (list N * N) ([x; y], 2)). unfold ret.
  change (be_dec [x; y]) with (y + 256 * (x + 256 * 0)). replace (y + 256 * (x + 256 * 0)) with (mood_code x y) by (unfold mood_code; lia).
  unfold guard, ret, fail. destruct (mem (mood_code x y) [1; 2; 3]); reflexivity.
Qed.
Lemma check_spec b x y n : x < 256 -> y < 256 -> key_fits b n 2 ->
  check_if_encrypted b [x; y] n = Ok (mem (mood_code (N.lxor x (key0 n)) (N.lxor y (key1 n))) [1; 2; 3]).
Proof.
  intros HX HY HK. unfold check_if_encrypted. rewrite get_key_ok by easy. cbn [res_bind].
  change (takeN 2 (song_key n)) with [key0 n; key1 n]. cbn [combine map fst snd]. apply rd_mood; apply lxor_byte; try easy; apply N.mod_lt; easy.
Qed.
Lemma mem_mood x y : y < 256 -> mem (mood_code x y) [1; 2; 3] = true <-> x = 0 /\ valid_mood y.
Proof. intro H. rewrite mem_in. unfold mood_code, valid_mood. cbn [In]. lia. Qed.
Lemma check_plain b m n : valid_mood m -> key_fits b n 2 -> check_if_encrypted b [0; m] n = Ok false.
Proof.
  intros HM HK. assert (m < 256) as HM2 by (unfold valid_mood in HM; lia). rewrite check_spec by easy. f_equal.
  destruct (mem _ _) eqn:E; [|easy]. apply mem_mood in E as [E1 E2]; [|apply lxor_byte; [easy|apply N.mod_lt; easy]].
  rewrite N.lxor_0_l in E1. assert (key1 n = 22) as EK by (unfold key0, key1 in *; lia). rewrite EK in E2.
  destruct HM as [->|[->| ->]]; cbn in E2; unfold valid_mood in E2; lia.
Qed.
Lemma check_encrypted b m n : valid_mood m -> key_fits b n 2 ->
  check_if_encrypted b [key0 n; N.lxor m (key1 n)] n = Ok true.
Proof.
  intros HM HK. assert (m < 256) as HM2 by (unfold valid_mood in HM; lia).
  rewrite check_spec; [|now apply N.mod_lt|apply lxor_byte; [easy|now apply N.mod_lt]|easy]. f_equal.
  rewrite N.lxor_nilpotent, N.lxor_assoc, N.lxor_nilpotent, N.lxor_0_r. apply mem_mood; easy.
Qed.

(** ** Reading back *)
Lemma view_has key st buf q bs : has buf q bs -> has (xor_view key st buf) q (xor_cycle key (Z.of_N q - Z.of_N st) bs).
Proof.
  intros (pre & post & -> & <-). unfold xor_view. rewrite !xor_cycle_app.
  eexists. eexists. split; [|apply len_xor_cycle]. f_equal. f_equal. f_equal. lia.
Qed.
Lemma view_has_start key buf q bs : has buf q bs -> has (xor_view key q buf) q (xor_cycle key 0 bs).
Proof. intro H. apply (view_has key q) in H. now rewrite Z.sub_diag in H. Qed.
Lemma view_invol key st buf : xor_view key st (xor_view key st buf) = buf.
Proof. apply xor_cycle_invol. Qed.
Lemma view_has_back key buf q bs : has (xor_view key q buf) q bs -> has buf q (xor_cycle key 0 bs).
Proof. intro H. apply view_has_start with (key := key) in H. now rewrite view_invol in H. Qed.
Lemma len_view key st buf : len (xor_view key st buf) = len buf.
Proof. apply len_xor_cycle. Qed.

Lemma song_data_wr b d buf pos bs :
  song_data_ok d -> enc_song_data b d = Ok bs -> has buf pos bs -> rd_song_data (len (sd_phrases d)) buf pos = Ok (d, pos + len bs).
Proof.
  intros [HV HP] HE HB. unfold enc_song_data in HE. destruct (enc_fields b song_fields (sd_values d)) as [vs| |] eqn:EV; [|easy|easy]. cbn [res_bind] in HE.
  destruct (enc_all (enc_fields b phrase_fields) (sd_phrases d)) as [ps| |] eqn:EP; [|easy|easy]. cbn [res_bind] in HE. apply Ok_inj in HE as <-.
  apply has_app in HB as [B1 B2]. unfold rd_song_data, bind. rewrite (plain_wr b song_fields _ _ _ vs eq_refl HV EV B1).
  unfold len at 1. rewrite Nat2N.id.
  rewrite (rd_count_res_has (enc_fields b phrase_fields) (rd_plain phrase_fields) (plain_ok phrase_fields) buf) with (bs := ps); try easy.
  - unfold ret. rewrite len_app. destruct d. do 2 f_equal. lia.
  - intros v q vb H1 H2 H3. now apply (plain_wr b phrase_fields v buf q vb).
Qed.
Lemma song_data_rw b n d buf pos pos' :
  bytes_ok buf -> pos <= len buf -> rd_song_data n buf pos = Ok (d, pos') ->
  song_data_ok d /\ len (sd_phrases d) = n /\ exists bs, enc_song_data b d = Ok bs /\ has buf pos bs /\ pos' = pos + len bs.
Proof.
  intros HB HP HR. unfold rd_song_data in HR. apply bind_inv in HR as (vs & p1 & H1 & HR). apply bind_inv in HR as (ps & p2 & H2 & HR).
  apply ret_inv in HR as [<- <-]. apply (plain_rw b) in H1 as (PV & vb & EV & HV & ->); [|reflexivity|easy|easy]. pose proof (has_len _ _ _ HV) as LV.
  apply (rd_count_res_inv (enc_fields b phrase_fields) _ (plain_ok phrase_fields)) in H2 as (LP & PP & pb & EP & HPB & ->); [| |lia].
  2:{ intros v q q' HQ HV'. eapply plain_rw; try eassumption. reflexivity. }
  split; [easy|]. split; [cbn [sd_phrases]; unfold len; rewrite LP; lia|]. unfold enc_song_data. cbn [sd_values sd_phrases]. rewrite EV. cbn [res_bind]. rewrite EP.
  eexists. split; [reflexivity|]. split; [now apply has_app|]. rewrite len_app. lia.
Qed.
Lemma song_data_enc b d : song_data_ok d -> exists bs, enc_song_data b d = Ok bs /\ len bs = 14 + 24 * len (sd_phrases d).
Proof.
  intros [HV HP]. unfold enc_song_data. destruct (plain_size b song_fields _ eq_refl HV) as (vs & -> & LV). cbn [res_bind].
  destruct (enc_all_total (enc_fields b phrase_fields) (plain_ok phrase_fields) (sd_phrases d)) as (ps & EP); [|easy|].
  - intros v Hv. destruct (plain_size b phrase_fields v eq_refl Hv) as (x & E & _). eauto.
  - rewrite EP. cbn [res_bind]. eexists. split; [reflexivity|]. rewrite len_app, LV. rewrite (enc_all_inv _ 24 _ _ ) with (2 := EP); [reflexivity|].
    intros v a HI HE. rewrite Forall_forall in HP. destruct (plain_size b phrase_fields v eq_refl (HP v HI)) as (x & E & L). assert (a = x) as -> by congruence. exact L.
Qed.
(** The data begins with the mood. *)
Lemma song_data_mood b d bs : song_data_ok d -> enc_song_data b d = Ok bs -> exists m r, valid_mood m /\ bs = 0 :: m :: r.
Proof.
  destruct d as [vals phr]. intros [HV HP] HE. unfold enc_song_data in HE. cbn [sd_values sd_phrases] in *. inversion HV as [|? v ? vs HM HVS]; subst.
  unfold mood in HM. cbn [field_ok] in HM. destruct v; try easy. apply mem_in in HM. cbn [In] in HM.
  change (enc_fields b song_fields (VNamed c :: vs)) with (do! y <- enc_fields b (tl song_fields) vs; Ok (be_enc 2 c ++ y)) in HE.
  destruct (enc_fields b (tl song_fields) vs) as [y| |]; [|easy|easy]. cbn [res_bind] in HE.
  destruct (enc_all _ _) as [ps| |]; [|easy|easy]. cbn [res_bind] in HE. apply Ok_inj in HE as <-. exists c, (y ++ ps).
  split; [unfold valid_mood; lia|]. rewrite be_enc_2 by lia. replace (c / 256) with 0 by lia. replace (c mod 256) with c by lia. reflexivity.
Qed.
Lemma song_wr b h s buf pos bs :
  song_data_ok (so_data s) -> song_fits b s -> h_size h + 24 * len (sd_phrases (so_data s)) = h_total h ->
  enc_song b s = Ok bs -> has buf pos bs -> rd_song b h buf pos = Ok (s, pos + len bs).
Proof.
  intros HD [HN HK] HZ HE HB. destruct s as [e d]. cbn [so_data so_encrypted] in *. unfold enc_song in HE. cbn [so_data so_encrypted] in HE.
  set (n := len (sd_phrases d)) in *. rewrite (N.mod_small n) in HE by easy.
  destruct (song_data_enc b d HD) as (db & ED & LD). fold n in LD. destruct (song_data_mood b d db HD ED) as (m & r & VM & EM).
  assert (key_fits b n 2) as K2 by (apply key_fits_2; destruct b, e; try easy; lia).
  assert (exists raw, enc_encrypted b e n d = Ok raw /\ raw = (if e then xor_cycle (song_key n) 0 db else db)) as (raw & ER & VR).
  { unfold enc_encrypted. destruct e; [|eauto]. rewrite get_key_19 by (apply key_fits_19; now destruct b). cbn [res_bind]. rewrite ED. eexists. split; reflexivity. }
  rewrite ER in HE. cbn [res_bind] in HE. apply Ok_inj in HE as <-.
  assert (len raw = len db) as LR by (rewrite VR; destruct e; [apply len_xor_cycle|easy]).
  apply has_app in HB as [B1 HB]. apply has_app in HB as [B2 B3]. rewrite len_be_enc in *. rewrite len_be_enc in *. change (N.of_nat 4) with 4 in *. change (N.of_nat 2) with 2 in *.
  unfold rd_song, bind. rewrite (rd_be4_has 24 _ _ eq_refl B1). rewrite guard_ok by easy. rewrite (rd_be2_has n _ _ HN B2). unfold lift, wmul.
  replace (24 * n <? 2 ^ 32) with true by lia. rewrite (content_size_ok b h _ HZ). rewrite guard_ok by lia. unfold tell.
  assert (exists x y t, raw = x :: y :: t /\ check_if_encrypted b [x; y] n = Ok e) as (x & y & t & EX & EC).
  { rewrite VR, EM. destruct e.
    - cbn [xor_cycle]. eexists. eexists. eexists. split; [reflexivity|]. rewrite N.lxor_0_l. now apply check_encrypted.
    - eexists. eexists. eexists. split; [reflexivity|]. now apply check_plain. }
  assert (has buf (pos + 4 + 2) [x; y]) as BX. { rewrite EX in B3. change (x :: y :: t) with ([x; y] ++ t) in B3. now apply has_app in B3 as [B3 _]. }
  pose proof (rd_bytes_has _ _ _ BX) as RX. change (len [x; y]) with 2 in RX. rewrite RX. unfold seek_to. rewrite EC.
  assert (rd_encrypted b e n buf (pos + 4 + 2) = Ok (d, pos + 4 + 2 + len db)) as ->.
  { unfold rd_encrypted. destruct e.
    - unfold bind, lift. rewrite get_key_19 by (apply key_fits_19; now destruct b). apply (song_data_wr b); [easy|easy|].
      rewrite VR in B3. apply (view_has_start (song_key n)) in B3. now rewrite xor_cycle_invol in B3.
    - apply (song_data_wr b); [easy|easy|]. now rewrite VR in B3. }
  unfold ret. do 2 f_equal. rewrite !len_app, !len_be_enc, LR. cbn [N.of_nat]. lia.
Qed.
Lemma check_inv b raw n e : check_if_encrypted b raw n = Ok e -> get_key b n 2 = Ok (takeN 2 (song_key n)).
Proof. unfold check_if_encrypted. destruct (get_key b n 2) as [k| |] eqn:E; [|easy|easy]. intros _. f_equal. now apply get_key_val in E. Qed.
Lemma song_rw b h s buf pos pos' :
  bytes_ok buf -> header_ok h -> pos <= len buf -> rd_song b h buf pos = Ok (s, pos') ->
  song_data_ok (so_data s) /\ song_fits b s /\ content_size b h = Ok (24 * len (sd_phrases (so_data s))) /\
  exists bs, enc_song b s = Ok bs /\ has buf pos bs /\ pos' = pos + len bs.
Proof.
  intros HB HH HP HR. unfold rd_song in HR. apply bind_inv in HR as (eb & q1 & A1 & HR). apply bind_inv in HR as (x & q2 & A2 & HR).
  apply guard_inv in A2 as [G <-]. apply bind_inv in HR as (n & q3 & A3 & HR). apply bind_inv in HR as (m & q4 & A4 & HR). apply bind_inv in HR as (cs & q5 & A5 & HR).
  apply bind_inv in HR as (y & q6 & A6 & HR). apply guard_inv in A6 as [G2 <-]. apply lift_inv in A4 as [A4 <-]. apply lift_inv in A5 as [A5 <-].
  apply rd_be4_inv in A1 as (E1 & E2 & ->); [|easy]. apply rd_be2_inv in A3 as (N1 & N2 & ->); [|easy].
  apply bind_inv in HR as (p & q7 & A7 & HR). unfold tell in A7. injection A7 as <- <-. apply bind_inv in HR as (raw & q8 & A8 & HR).
  apply bind_inv in HR as (z & q9 & A9 & HR). unfold seek_to in A9. injection A9 as <- <-. apply bind_inv in HR as (e & q10 & A10 & HR).
  apply lift_inv in A10 as [A10 <-]. apply bind_inv in HR as (d & q11 & A11 & HR). apply ret_inv in HR as [<- <-]. cbn [so_data so_encrypted].
  assert (eb = 24) as -> by lia. unfold wmul in A4. replace (24 * n <? 2 ^ 32) with true in A4 by lia. apply Ok_inj in A4 as <-.
  assert (cs = 24 * n) as -> by lia. pose proof (has_len _ _ _ N2) as LN. rewrite len_be_enc in LN. cbn [N.of_nat] in LN.
  pose proof (check_inv _ _ _ _ A10) as K2.
  assert ((e = true -> get_key b n 19 = Ok (song_key n)) /\ song_data_ok d /\ len (sd_phrases d) = n /\
    exists bs, enc_encrypted b e n d = Ok bs /\ has buf (pos + 4 + 2) bs /\ q11 = pos + 4 + 2 + len bs) as (KE & DO & LP & bs & EB & HBS & ->).
  { unfold rd_encrypted in A11. destruct e.
    - apply bind_inv in A11 as (key & q & AK & A11). apply lift_inv in AK as [AK <-]. pose proof (get_key_val _ _ _ _ AK) as EK.
      change (takeN 19 (song_key n)) with (song_key n) in EK. subst key. split; [easy|].
      apply (song_data_rw b) in A11 as (DO & LP & db & EDB & HDB & ->); [|apply xor_cycle_bytes; [apply song_key_bytes|easy]|rewrite len_view; lia].
      split; [easy|]. split; [easy|]. unfold enc_encrypted. rewrite AK. cbn [res_bind]. rewrite EDB. eexists. split; [reflexivity|].
      split; [now apply view_has_back|]. now rewrite len_xor_cycle.
    - split; [easy|]. apply (song_data_rw b) in A11 as (DO & LP & db & EDB & HDB & ->); [|easy|lia]. split; [easy|]. split; [easy|]. unfold enc_encrypted. eauto. }
  split; [easy|]. split; [|split].
  - unfold song_fits. cbn [so_data so_encrypted]. rewrite LP. split; [easy|]. destruct b; [|easy].
    destruct e; [destruct (N.lt_ge_cases 65285 n) as [L|L]; [|easy]; rewrite (get_key_19_panic n L) in KE; now specialize (KE eq_refl)|].
    destruct (N.lt_ge_cases 65310 n) as [L|L]; [|easy]. now rewrite (get_key_2_panic n L) in K2.
  - now rewrite LP.
  - unfold enc_song. cbn [so_data so_encrypted]. rewrite LP, (N.mod_small n) by easy. rewrite EB. cbn [res_bind]. eexists. split; [reflexivity|]. split.
    + apply has_app. split; [easy|]. rewrite len_be_enc. apply has_app. rewrite len_be_enc. split; [exact N2|exact HBS].
    + rewrite !len_app, !len_be_enc. cbn [N.of_nat]. lia.
Qed.
