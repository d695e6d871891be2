(** * Where analysis files store things

    The tables of C69, from the documentation comments of /repo and the analysis they cite, and the proofs that the reader follows them. *)
From Coq Require Import NArith ZArith List Bool String Ascii Lia.
From Coq Require Import ZifyBool ZifyNat ZifyN.
From Verif Require Import Base BaseFacts Utf Schema SchemaFacts Xor XorFacts Anlz AnlzFacts AnlzCodec AnlzSong AnlzSections Layout.
Import ListNotations.
Open Scope N_scope.

(** ** Specification *)

(** The kinds by their four letters. *)
Definition kind_letters : list (string * ckind) :=
  [("PMAI", KFile); ("PQTZ", KBeatGrid); ("PCOB", KCueList); ("PCO2", KExtendedCueList); ("PCP2", KExtendedCue); ("PCPT", KCue); ("PPTH", KPath);
   ("PVBR", KVBR); ("PWAV", KWaveformPreview); ("PWV2", KTinyWaveformPreview); ("PWV3", KWaveformDetail); ("PWV4", KWaveformColorPreview);
   ("PWV5", KWaveformColorDetail); ("PWV6", KWaveform3BandPreview); ("PWV7", KWaveform3BandDetail); ("PSSI", KSongStructure)]%string.
Definition letters (s : string) : list N := map N_of_ascii (list_ascii_of_string s).
(** Four letters at [pos], or four other bytes, that are then the kind. *)
Definition kind_at (buf : list N) (pos : N) (k : ckind) : Prop :=
  match k with
  | KUnknown c => number_be buf pos 4 = Some c /\ forall s k', In (s, k') kind_letters -> ~ has buf pos (letters s)
  | _ => exists s, In (s, k) kind_letters /\ has buf pos (letters s)
  end.
Definition header_at (buf : list N) (pos : N) (h : header) : Prop :=
  kind_at buf pos (h_kind h) /\ number_be buf (pos + 4) 4 = Some (h_size h) /\ number_be buf (pos + 8) 4 = Some (h_total h).

(** Tables of name, offset and width; most significant byte first. *)
Definition table_at (t : list (string * N * N)) (buf : list N) (pos : N) (vs : list fval) : Prop :=
  Forall2 (fun q x => number_be buf (pos + snd (fst q)) (N.to_nat (snd q)) = Some x) t (numbers vs).
Definition beat_table : list (string * N * N) := [("beat_number", 0, 2); ("tempo", 2, 2); ("time", 4, 4)]%string.
Definition cue_table : list (string * N * N) :=
  [("hot_cue", 12, 4); ("status", 16, 4); ("unknown1", 20, 4); ("order_first", 24, 2); ("order_last", 26, 2); ("cue_type", 28, 1); ("unknown2", 29, 1);
   ("unknown3", 30, 2); ("time", 32, 4); ("loop_time", 36, 4); ("unknown4", 40, 4); ("unknown5", 44, 4); ("unknown6", 48, 4); ("unknown7", 52, 4)]%string.
Definition ecue_table : list (string * N * N) :=
  [("hot_cue", 12, 4); ("cue_type", 16, 1); ("unknown1", 17, 1); ("unknown2", 18, 2); ("time", 20, 4); ("loop_time", 24, 4); ("color", 28, 1); ("unknown3", 29, 1);
   ("unknown4", 30, 2); ("unknown5", 32, 4); ("loop_numerator", 36, 2); ("loop_denominator", 38, 2)]%string.
(** Behind the comment. *)
Definition ecue_more_table : list (string * N * N) :=
  [("hot_cue_color_index", 0, 1); ("red", 1, 1); ("green", 2, 1); ("blue", 3, 1); ("unknown6", 4, 4); ("unknown7", 8, 4); ("unknown8", 12, 4);
   ("unknown9", 16, 4); ("unknown10", 20, 4)]%string.
Definition song_table : list (string * N * N) :=
  [("mood", 0, 2); ("unknown1", 2, 4); ("unknown2", 6, 2); ("end_beat", 8, 2); ("unknown3", 10, 2); ("bank", 12, 1); ("unknown4", 13, 1)]%string.
Definition phrase_table : list (string * N * N) :=
  [("index", 0, 2); ("beat", 2, 2); ("kind", 4, 2); ("unknown1", 6, 1); ("k1", 7, 1); ("unknown2", 8, 1); ("k2", 9, 1); ("unknown3", 10, 1); ("b", 11, 1);
   ("beat2", 12, 2); ("beat3", 14, 2); ("beat4", 16, 2); ("unknown4", 18, 1); ("k3", 19, 1); ("unknown5", 20, 1); ("fill", 21, 1); ("beat_fill", 22, 2)]%string.
(** Entries of [n] bytes, one behind the other. *)
Definition entries_at {A} (n : N) (at_ : N -> A -> Prop) (pos : N) (l : list A) : Prop := forall i x, getN l i = Some x -> at_ (pos + n * i) x.
(** Entries of different sizes, one behind the other, up to [fin]. *)
Fixpoint chain_at {A} (at_ : N -> A -> N -> Prop) (pos : N) (l : list A) (fin : N) : Prop :=
  match l with [] => fin = pos | x :: r => exists q, at_ pos x q /\ chain_at at_ q r fin end.
Definition cue_at (buf : list N) (pos : N) (c : cue) : Prop := header_at buf pos (cue_header c) /\ table_at cue_table buf pos (cue_values c).
(** The comment: the number of its bytes, then UTF-16 with the most significant byte first; zeros at the end do not belong to it. *)
Definition comment_at (buf : list N) (pos : N) (s : list N) (fin : N) : Prop :=
  exists n, number_be buf pos 4 = Some n /\ fin = pos + 4 + n /\
  exists units z, (forall i u, getN units i = Some u -> number_be buf (pos + 4 + 2 * i) 2 = Some u) /\ len units = n / 2 /\
    utf16_dec units = Some (s ++ repeat 0 z) /\ (forall c r, rev s = c :: r -> c <> 0).
Definition ecue_at (buf : list N) (pos : N) (c : ecue) (fin : N) : Prop :=
  header_at buf pos (ec_header c) /\ table_at ecue_table buf pos (ec_values c) /\
  exists q, comment_at buf (pos + 40) (ec_comment c) q /\ table_at ecue_more_table buf q (ec_more c) /\
    has buf (q + 24) (ec_trailing c) /\ fin = q + 24 + len (ec_trailing c).
(** Waveforms: where the numbers and the columns are, and the width of a column. *)
Definition wave_data (w : wave) : N := match w with WPreview | WTiny | W3Preview => 20 | _ => 24 end.
Definition wave_width (w : wave) : N := match w with WPreview | WTiny | WDetail => 1 | WColorDetail => 2 | W3Preview | W3Detail => 3 | WColorPreview => 6 end.
(** Columns are single bytes, except those of the colour detail, which are numbers with the least significant byte first. *)
Definition column_at (w : wave) (buf : list N) (pos : N) (vs : list fval) : Prop :=
  match w with
  | WColorDetail => exists x, numbers vs = [x] /\ number buf pos 2 = Some x
  | _ => has buf pos (numbers vs) /\ len (numbers vs) = wave_width w
  end.
Definition wave_at (buf : list N) (pos : N) (w : wave) (f : waveform) (fin : N) : Prop :=
  wf_type f = w /\ number_be buf (pos + match w with WPreview | WTiny => 12 | _ => 16 end) 4 = Some (len (wf_data f)) /\
  match w with WPreview | WTiny => True | _ => number_be buf (pos + 12) 4 = Some (wave_width w) end /\
  match w, wf_unknown f with
  | W3Preview, None => True
  | W3Preview, _ | _, None => False
  | (WPreview | WTiny), Some u => number_be buf (pos + 16) 4 = Some u
  | _, Some u => number_be buf (pos + 20) 4 = Some u
  end /\
  entries_at (wave_width w) (column_at w buf) (pos + wave_data w) (wf_data f) /\ fin = pos + wave_data w + wave_width w * len (wf_data f).
(** Encrypted contents from [start] on: byte [i] is combined with byte [i] modulo 19 of this mask plus the number of phrases. *)
Definition mask_bytes : list N := [0xCB; 0xE1; 0xEE; 0xFA; 0xE5; 0xEE; 0xAD; 0xEE; 0xE9; 0xD2; 0xE9; 0xEB; 0xE1; 0xE9; 0xF3; 0xE8; 0xE9; 0xF4; 0xE1].
Definition masked (n start : N) (buf buf' : list N) : Prop :=
  len buf' = len buf /\ forall i x m, getN buf (start + i) = Some x -> getN mask_bytes (i mod 19) = Some m -> getN buf' (start + i) = Some (N.lxor x ((m + n) mod 256)).
(** The contents of the section that starts at [pos]. *)
Definition content_at (buf : list N) (pos : N) (h : header) (c : content) (fin : N) : Prop :=
  match c with
  | CBeatGrid u1 u2 beats => h_kind h = KBeatGrid /\
    number_be buf (pos + 12) 4 = Some u1 /\ number_be buf (pos + 16) 4 = Some u2 /\ number_be buf (pos + 20) 4 = Some (len beats) /\
    entries_at 8 (table_at beat_table buf) (pos + 24) beats /\ fin = pos + 24 + 8 * len beats
  | CCueList ty u mc cues => h_kind h = KCueList /\
    (exists t, ty = VNamed t /\ t <= 1 /\ number_be buf (pos + 12) 4 = Some t) /\ number_be buf (pos + 16) 2 = Some u /\
    number_be buf (pos + 18) 2 = Some (len cues) /\ number_be buf (pos + 20) 4 = Some mc /\
    entries_at 56 (cue_at buf) (pos + 24) cues /\ fin = pos + 24 + 56 * len cues
  | CExtendedCueList ty u cues => h_kind h = KExtendedCueList /\
    (exists t, ty = VNamed t /\ t <= 1 /\ number_be buf (pos + 12) 4 = Some t) /\ number_be buf (pos + 16) 2 = Some (len cues) /\
    number_be buf (pos + 18) 2 = Some 0 /\ u = 0 /\ chain_at (ecue_at buf) (pos + 20) cues fin
  | CPath p => h_kind h = KPath /\
    number_be buf (pos + 12) 4 = Some (2 * len p + 2) /\ (forall i u, getN p i = Some u -> u <> 0 /\ number_be buf (pos + 16 + 2 * i) 2 = Some u) /\
    number_be buf (pos + 16 + 2 * len p) 2 = Some 0 /\ fin = pos + 18 + 2 * len p
  | CVBR u d => h_kind h = KVBR /\ number_be buf (pos + 12) 4 = Some u /\ has buf (pos + 16) d /\ fin = pos + 16 + len d
  | CWave f => match h_kind h with
    | KWaveformPreview => wave_at buf pos WPreview f fin | KTinyWaveformPreview => wave_at buf pos WTiny f fin
    | KWaveformDetail => wave_at buf pos WDetail f fin | KWaveformColorPreview => wave_at buf pos WColorPreview f fin
    | KWaveformColorDetail => wave_at buf pos WColorDetail f fin | KWaveform3BandPreview => wave_at buf pos W3Preview f fin
    | KWaveform3BandDetail => wave_at buf pos W3Detail f fin | _ => False
    end
  | CSong s => h_kind h = KSongStructure /\ number_be buf (pos + 12) 4 = Some 24 /\
    number_be buf (pos + 16) 2 = Some (len (sd_phrases (so_data s))) /\
    (exists buf', (if so_encrypted s then masked (len (sd_phrases (so_data s))) (pos + 18) buf buf' else buf' = buf) /\
      table_at song_table buf' (pos + 18) (sd_values (so_data s)) /\ entries_at 24 (table_at phrase_table buf') (pos + 32) (sd_phrases (so_data s))) /\
    fin = pos + 32 + 24 * len (sd_phrases (so_data s))
  | CUnknown hd d => (exists k, h_kind h = KUnknown k) /\ has buf (pos + 12) (hd ++ d) /\ fin = pos + 12 + len hd + len d
  end.

Definition section_at (buf : list N) (pos : N) (s : section) (fin : N) : Prop :=
  header_at buf pos (se_header s) /\ content_at buf pos (se_header s) (se_content s) fin.
(** A file: header, more of the header, sections. *)
Definition file_at (buf : list N) (pos : N) (a : anlz) (fin : N) : Prop :=
  header_at buf pos (an_header a) /\ h_kind (an_header a) = KFile /\ has buf (pos + 12) (an_header_data a) /\ h_size (an_header a) = 12 + len (an_header_data a) /\
  chain_at (section_at buf) (pos + h_size (an_header a)) (an_sections a) fin.

(** ** Proofs *)
Lemma rd_be_at n buf pos x p : n <> 0%nat -> rd_be n buf pos = Ok (x, p) -> number_be buf pos n = Some x /\ p = pos + N.of_nat n /\ p <= len buf.
Proof.
  intros HN H. pose proof (rd_be_number _ _ _ _ _ HN H) as [H1 ->]. split; [exact H1|]. split; [reflexivity|].
  unfold rd_be in H. apply bind_inv in H as (bs & p1 & H & _). apply rd_bytes_inv in H as (L & _ & [Z|H]); [lia|]. apply has_len in H. lia.
Qed.
Lemma rd_bytes_at n buf pos bs p : pos <= len buf -> rd_bytes n buf pos = Ok (bs, p) -> has buf pos bs /\ len bs = n /\ p = pos + n /\ p <= len buf.
Proof.
  intros HP H. apply rd_bytes_inv in H as (L & -> & [Z|H]).
  - subst n. destruct bs; [|rewrite len_cons in Z; lia]. split; [now apply has_nil|]. split; [reflexivity|]. split; [reflexivity|]. lia.
  - split; [exact H|]. split; [exact L|]. split; [reflexivity|]. apply has_len in H. lia.
Qed.
(** Entries. *)
Lemma rd_count_entries {A} (dec : parser A) (at_ : N -> A -> Prop) n buf :
  (forall pos x p, pos <= len buf -> dec buf pos = Ok (x, p) -> at_ pos x /\ p = pos + n /\ p <= len buf) ->
  forall k pos l p, pos <= len buf -> rd_count k dec buf pos = Ok (l, p) -> entries_at n at_ pos l /\ len l = N.of_nat k /\ p = pos + n * len l /\ p <= len buf.
Proof.
  intro HD. induction k as [|k IH]; intros pos l p HP H; cbn [rd_count] in H.
  - apply ret_inv in H as [<- <-]. split; [intros i x HX; apply getN_Some_lt in HX; cbn in HX; lia|]. cbn. lia.
  - apply bind_inv in H as (x & p1 & R & H). apply bind_inv in H as (xs & p2 & R2 & H). apply ret_inv in H as [<- <-].
    apply HD in R as (R & -> & HL); [|assumption]. apply IH in R2 as (G & L & -> & HE); [|assumption]. rewrite len_cons. rewrite N.mul_add_distr_l, N.mul_1_r.
    split; [|lia]. intros i y HY. rewrite getN_cons in HY. destruct (i =? 0) eqn:E.
    + assert (x = y) as <- by congruence. apply N.eqb_eq in E as ->. now rewrite N.mul_0_r, N.add_0_r.
    + apply G in HY. replace i with (1 + (i - 1)) by lia. now rewrite N.mul_add_distr_l, N.mul_1_r, N.add_assoc.
Qed.
Lemma rd_count_chain {A} (dec : parser A) (at_ : N -> A -> N -> Prop) buf :
  (forall pos x p, pos <= len buf -> dec buf pos = Ok (x, p) -> at_ pos x p /\ p <= len buf) ->
  forall k pos l p, pos <= len buf -> rd_count k dec buf pos = Ok (l, p) -> chain_at at_ pos l p /\ len l = N.of_nat k /\ p <= len buf.
Proof.
  intro HD. induction k as [|k IH]; intros pos l p HP H; cbn [rd_count] in H.
  - apply ret_inv in H as [<- <-]. now split.
  - apply bind_inv in H as (x & p1 & R & H). apply bind_inv in H as (xs & p2 & R2 & H). apply ret_inv in H as [<- <-].
    apply HD in R as (R & HL); [|assumption]. apply IH in R2 as (G & L & HE); [|assumption]. rewrite len_cons.
    split; [|lia]. now exists p1.
Qed.
(** Tables. *)
Definition is_num (f : field) : bool := match f with FInt _ _ | FEnum _ _ _ => true | _ => false end.
Lemma plain_end fs : forall buf pos vs p, forallb is_num fs = true -> fields_wfb fs = true -> pos <= len buf -> rd_plain fs buf pos = Ok (vs, p) ->
  p = pos + fields_size fs /\ p <= len buf.
Proof.
  unfold rd_plain. induction fs as [|f fs IH]; intros buf pos vs p HN HW HP H; cbn [rd_fields] in H; [apply ret_inv in H as [_ <-]; cbn; lia|].
  cbn [forallb fields_wfb] in *. apply andb_true_iff in HN as [N1 N2]. apply andb_true_iff in HW as [W1 W2].
  apply bind_inv in H as (v & p1 & R & H). apply bind_inv in H as (ws & p2 & R2 & H). apply ret_inv in H as [_ <-].
  assert (p1 = pos + field_size f /\ p1 <= len buf) as [-> HL].
  { assert (forall e n x q, n <> 0%nat -> rd_int e n buf pos = Ok (x, q) -> q = pos + N.of_nat n /\ q <= len buf) as HR.
    { intros e n x q Hn HQ. unfold rd_int, rd_le, rd_be in HQ. destruct e; apply bind_inv in HQ as (bs & q1 & HB & HQ); apply ret_inv in HQ as [_ <-]; apply rd_bytes_at in HB; tauto. }
    destruct f; try discriminate; cbn [rd_field field_size field_wfb] in *.
    - apply bind_inv in R as (x & q & R & E). apply ret_inv in E as [_ <-]. apply HR in R; [exact R|lia].
    - apply bind_inv in R as (x & q & R & E). apply bind_inv in E as (u & q2 & G & E). apply ret_inv in E as [_ <-]. apply guard_inv in G as [_ <-]. apply HR in R; [exact R|lia]. }
  apply IH in R2 as [-> HE]; [|assumption|assumption|assumption]. change (fields_size (f :: fs)) with (field_size f + fields_size fs). split; [lia|assumption].
Qed.
Definition table_of (t : list (string * N * N)) : list (N * nat) := map (fun q => (snd (fst q), N.to_nat (snd q))) t.
Lemma is_num_first fs : forallb is_num fs = true -> numbers_first fs = true.
Proof. induction fs as [|f fs IH]; intro H; [reflexivity|]. cbn [forallb] in H. apply andb_true_iff in H as [H1 H2]. destruct f; try discriminate; cbn [numbers_first]; auto. Qed.
Lemma table_read t fs o buf pos vs p : table_of t = places o fs -> forallb is_num fs = true -> one_endian BE fs = true -> fields_wfb fs = true -> pos + o <= len buf ->
  rd_plain fs buf (pos + o) = Ok (vs, p) -> table_at t buf pos vs /\ p = pos + o + fields_size fs /\ p <= len buf.
Proof.
  intros HT HN HE HW HP H. pose proof (plain_end _ _ _ _ _ HN HW HP H) as HQ. split; [|exact HQ]. unfold rd_plain in H.
  apply (fields_numbers _ BE) in H; [|now apply is_num_first|assumption|assumption]. rewrite <- HT in H. unfold table_at. clear -H.
  revert H. generalize (numbers vs). induction t as [|q t IH]; intros l H; inversion H; subst; constructor; auto.
Qed.
(** Headers. *)
Lemma number_be_of buf bs pos w : List.length bs = w -> has buf pos bs -> number_be buf pos w = Some (be_dec bs).
Proof. intros <-. apply number_be_has. Qed.
Lemma has_unique buf a b pos : bytes_ok buf -> bytes_ok a -> List.length a = 4%nat -> has buf pos b -> List.length b = 4%nat -> be_dec a = be_dec b -> has buf pos a.
Proof.
  intros HB HA LA H LB E. pose proof (has_bytes_ok _ _ _ HB H) as HB'. replace a with b; [exact H|].
  destruct a as [|a0 [|a1 [|a2 [|a3 [|]]]]]; try discriminate. destruct b as [|b0 [|b1 [|b2 [|b3 [|]]]]]; try discriminate.
  unfold be_dec in E. cbn [rev app le_dec] in E.
  unfold bytes_ok in HA, HB'. repeat match goal with H : Forall _ (_ :: _) |- _ => apply Forall_cons_iff in H as [? H] end. clear HB H. repeat f_equal; lia.
Qed.
Lemma ckind_at buf pos c : bytes_ok buf -> has buf pos c -> List.length c = 4%nat -> kind_at buf pos (ckind_of (be_dec c)).
Proof.
  intros HB HC L. unfold ckind_of. destruct (find _ _) as [k|] eqn:E.
  - apply find_some in E as [I E]. apply N.eqb_eq in E. unfold ckinds in I.
    assert (forall s, bytes_ok (letters s) -> List.length (letters s) = 4%nat -> be_dec (letters s) = ckind_code k -> In (s, k) kind_letters -> exists s, In (s, k) kind_letters /\ has buf pos (letters s)) as HK.
    { intros s H1 H2 H3 H4. exists s. split; [exact H4|]. eapply has_unique; [exact HB|exact H1|exact H2|exact HC|exact L|congruence]. }
    repeat destruct I as [<-|I]; [..|destruct I]; cbn [kind_at];
      match goal with |- exists s, In (s, ?k) _ /\ _ =>
        let t := eval vm_compute in (find (fun q => ckind_code (snd q) =? ckind_code k) kind_letters) in
        match t with Some (?s, _) => apply (HK s) end end;
      solve [repeat constructor | reflexivity | unfold kind_letters; cbn [In]; tauto].
  - cbn [kind_at]. split; [now apply number_be_of|]. intros s k' HI HS.
    assert (List.length (letters s) = 4%nat /\ be_dec (letters s) = ckind_code k' /\ In k' ckinds) as (L2 & E2 & I2).
    { unfold kind_letters in HI. repeat (destruct HI as [[= <- <-]|HI]; [split; [reflexivity|]; split; [reflexivity|]; unfold ckinds; cbn [In]; tauto|]). destruct HI. }
    assert (letters s = c) as EQ by (apply (has_inj buf pos); [assumption|assumption|]; unfold len; now rewrite L, L2).
    apply (find_none _ _ E) in I2. apply N.eqb_neq in I2. apply I2. rewrite <- E2, EQ. reflexivity.
Qed.
Lemma header_read buf pos h p : bytes_ok buf -> rd_header buf pos = Ok (h, p) -> header_at buf pos h /\ p = pos + 12 /\ p <= len buf.
Proof.
  intros HB H. unfold rd_header in H. apply bind_inv in H as (k & p1 & R1 & H). apply bind_inv in H as (s & p2 & R2 & H). apply bind_inv in H as (t & p3 & R3 & H).
  apply ret_inv in H as [<- <-]. unfold rd_ckind in R1. apply bind_inv in R1 as (c & q & R1 & E). apply ret_inv in E as [<- <-].
  unfold rd_be in R1. apply bind_inv in R1 as (bs & q' & R1 & E). apply ret_inv in E as [<- <-]. apply rd_bytes_inv in R1 as (L & -> & [Z|HS]); [discriminate|].
  apply rd_be_at in R2 as (R2 & -> & _); [|discriminate]. apply rd_be_at in R3 as (R3 & -> & HL); [|discriminate]. change (N.of_nat 4) with 4 in *.
  split; [|split; [lia|assumption]]. unfold header_at. cbn [h_kind h_size h_total].
  split; [apply ckind_at; [assumption|assumption|unfold len in L; lia]|]. split; [exact R2|]. now rewrite <- N.add_assoc in R3.
Qed.
Lemma cue_read buf pos c p : bytes_ok buf -> rd_cue buf pos = Ok (c, p) -> cue_at buf pos c /\ p = pos + 56 /\ p <= len buf.
Proof.
  intros HB H. unfold rd_cue in H. apply bind_inv in H as (h & p1 & R1 & H). apply bind_inv in H as (vs & p2 & R2 & H). apply ret_inv in H as [<- <-].
  apply header_read in R1 as (R1 & -> & HL); [|assumption]. apply (table_read cue_table) in R2 as (R2 & -> & HE); [|reflexivity|reflexivity|reflexivity|reflexivity|assumption].
  split; [now split|]. change (fields_size cue_fields) with 44 in *. lia.
Qed.
(** Comments. *)
Lemma units_at buf : forall bs pos i u, has buf pos bs -> getN (be_units bs) i = Some u -> number_be buf (pos + 2 * i) 2 = Some u.
Proof.
  fix IH 1. intros [|hi [|lo bs]] pos i u HH HU; [clear IH; apply getN_Some_lt in HU; cbn in HU; lia|clear IH; apply getN_Some_lt in HU; cbn in HU; lia|].
  cbn [be_units] in HU. rewrite getN_cons in HU. apply has_cons in HH as [H1 HH]. apply has_cons in HH as [H2 HH]. destruct (i =? 0) eqn:E.
  - clear IH. apply N.eqb_eq in E as ->. assert (256 * hi + lo = u) as <- by congruence. rewrite N.mul_0_r, N.add_0_r. cbn [number_be]. change (N.of_nat 1) with 1. change (N.of_nat 0) with 0.
    rewrite H2, N.add_0_r, H1. f_equal. lia.
  - apply (IH bs (pos + 1 + 1)) in HU; [|exact HH]. clear IH. replace (pos + 2 * i) with (pos + 1 + 1 + 2 * (i - 1)) by lia. exact HU.
Qed.
Lemma comment_read buf pos s p : rd_comment buf pos = Ok (s, p) -> comment_at buf pos s p /\ p <= len buf.
Proof.
  intro H. unfold rd_comment in H. apply bind_inv in H as (n & p1 & R & H). apply rd_be_at in R as (R & -> & HL); [|discriminate]. change (N.of_nat 4) with 4 in *.
  destruct (n =? 0) eqn:E.
  - apply N.eqb_eq in E as ->. apply ret_inv in H as [<- <-]. split; [|exact HL]. exists 0. split; [exact R|]. split; [lia|]. exists [], 0%nat.
    split; [intros i u HU; apply getN_Some_lt in HU; cbn in HU; lia|]. split; [reflexivity|]. split; [reflexivity|]. intros c r. discriminate.
  - apply bind_inv in H as (bs & p2 & R2 & H). apply rd_bytes_at in R2 as (R2 & L & -> & HE); [|assumption].
    destruct (utf16_dec (be_units bs)) as [s'|] eqn:D; [|discriminate]. apply ret_inv in H as [<- <-]. split; [|exact HE].
    exists n. split; [exact R|]. split; [reflexivity|]. destruct (trim_end0_zeros s') as [z Z]. exists (be_units bs), z. split; [intros i u; now apply units_at|].
    split; [rewrite len_be_units; now rewrite L|]. split; [rewrite <- Z; exact D|].
    intros c r HR Hc. apply (trim_end0_not s'). exists (rev r). subst c. rewrite <- (rev_involutive (trim_end0 s')), HR. reflexivity.
Qed.
Lemma ecue_read b buf pos c p : bytes_ok buf -> rd_ecue b buf pos = Ok (c, p) -> ecue_at buf pos c p /\ p <= len buf.
Proof.
  intros HB H. unfold rd_ecue in H. apply bind_inv in H as (h & p1 & R1 & H). apply bind_inv in H as (vs & p2 & R2 & H). apply bind_inv in H as (s & p3 & R3 & H).
  apply bind_inv in H as (ws & p4 & R4 & H). apply bind_inv in H as (n & p5 & R5 & H). apply bind_inv in H as (tr & p6 & R6 & H). apply ret_inv in H as [<- <-].
  apply lift_eq in R5 as [_ <-]. apply header_read in R1 as (R1 & -> & HL); [|assumption].
  apply (table_read ecue_table) in R2 as (R2 & -> & HL2); [|reflexivity|reflexivity|reflexivity|reflexivity|assumption].
  change (fields_size ecue_fields) with 28 in *. apply comment_read in R3 as (R3 & HL3).
  rewrite <- (N.add_0_r p3) in R4. apply (table_read ecue_more_table) in R4 as (R4 & -> & HL4); [|reflexivity|reflexivity|reflexivity|reflexivity|now rewrite N.add_0_r].
  change (fields_size ecue_more_fields) with 24 in *. rewrite N.add_0_r in *. apply rd_bytes_at in R6 as (R6 & L & -> & HE); [|assumption].
  split; [|exact HE]. split; [exact R1|]. split; [exact R2|]. exists p3. cbn [ec_comment ec_more ec_trailing]. rewrite <- N.add_assoc in R3.
  split; [exact R3|]. split; [exact R4|]. split; [exact R6|]. now rewrite L.
Qed.
(** Waveforms. *)
Lemma column_read w buf pos vs p : pos <= len buf -> rd_plain (wave_fields w) buf pos = Ok (vs, p) -> column_at w buf pos vs /\ p = pos + wave_width w /\ p <= len buf.
Proof.
  intros HP H. pose proof H as HQ. apply plain_end in HQ as [-> HE]; [|now destruct w|now destruct w|assumption].
  split; [|split; [now destruct w|exact HE]]. rewrite <- (N.add_0_r pos) in H. unfold rd_plain in H.
  assert (forall x q, number buf q 1 = Some x -> getN buf q = Some x) as HL by (intros x q; cbn [number]; destruct (getN buf q); [intros [= <-]; f_equal; lia|discriminate]).
  assert (forall x q, number_be buf q 1 = Some x -> getN buf q = Some x) as HB by (intros x q; cbn [number_be]; change (N.of_nat 0) with 0; rewrite N.add_0_r; destruct (getN buf q); [intros [= <-]; f_equal; lia|discriminate]).
  assert (pos + wave_width w <= len buf) as HW by (destruct w; exact HE).
  destruct w; cbn [wave_fields] in H; (apply (fields_numbers _ LE) in H; [|reflexivity|reflexivity|reflexivity]) || (apply (fields_numbers _ BE) in H; [|reflexivity|reflexivity|reflexivity]);
    cbn [places number_of wave_width column_at fst snd] in *; change (N.of_nat 1) with 1 in *; cbn [N.add Pos.add Pos.succ] in H.
  all: revert H; generalize (numbers vs); intros l H.
  all: repeat match goal with H : Forall2 _ _ _ |- _ => inversion H; subst; clear H end.
  all: cbn [fst snd] in *; rewrite ?N.add_0_r in *.
  all: try (split; [|reflexivity]; repeat (apply has_cons; split; [first [apply HL; now rewrite <- ?N.add_assoc|apply HB; now rewrite <- ?N.add_assoc]|]); apply has_nil; lia).
  eexists. split; [reflexivity|assumption].
Qed.
Lemma wave_read b h w buf pos f p : pos + 12 <= len buf -> rd_wave b h w buf (pos + 12) = Ok (f, p) -> wave_at buf pos w f p /\ p <= len buf.
Proof.
  intros HP H. unfold rd_wave in H. apply bind_inv in H as (n & p1 & R1 & H). apply bind_inv in H as (u & p2 & R2 & H). apply bind_inv in H as (d & p3 & R3 & H). apply ret_inv in H as [<- <-].
  unfold wave_at. cbn [wf_type wf_unknown wf_data].
  assert (match w with WPreview | WTiny => number_be buf (pos + 12) 4 = Some n /\ p1 = pos + 16
    | _ => number_be buf (pos + 12) 4 = Some (wave_width w) /\ number_be buf (pos + 16) 4 = Some n /\ p1 = pos + 20 end /\ p1 <= len buf) as [H1 HL1].
  { unfold rd_wave_count in R1. destruct (wave_entry w) as [e|] eqn:EW.
    - apply bind_inv in R1 as (eb & q1 & S1 & R1). apply bind_inv in R1 as (u1 & q2 & S2 & R1). apply bind_inv in R1 as (m & q3 & S3 & R1). apply bind_inv in R1 as (m1 & q4 & S4 & R1).
      apply bind_inv in R1 as (cs & q5 & S5 & R1). apply bind_inv in R1 as (u2 & q6 & S6 & R1). apply ret_inv in R1 as [<- <-].
      apply guard_inv in S2 as [G <-]. apply N.eqb_eq in G as ->. apply lift_eq in S4 as [_ <-]. apply lift_eq in S5 as [_ <-]. apply guard_inv in S6 as [_ <-].
      apply rd_be_at in S1 as (S1 & -> & _); [|discriminate]. apply rd_be_at in S3 as (S3 & -> & HL); [|discriminate]. change (N.of_nat 4) with 4 in *.
      rewrite <- N.add_assoc in S3. change (12 + 4) with 16 in S3. split; [|exact HL].
      destruct w; cbn [wave_entry] in EW; try discriminate; injection EW as <-; (split; [exact S1|]; split; [exact S3|lia]).
    - apply bind_inv in R1 as (m & q1 & S1 & R1). apply bind_inv in R1 as (cs & q5 & S5 & R1). apply bind_inv in R1 as (u2 & q6 & S6 & R1). apply ret_inv in R1 as [<- <-].
      apply lift_eq in S5 as [_ <-]. apply guard_inv in S6 as [_ <-]. apply rd_be_at in S1 as (S1 & -> & HL); [|discriminate]. change (N.of_nat 4) with 4 in *. split; [|exact HL].
      destruct w; cbn [wave_entry] in EW; try discriminate; (split; [exact S1|lia]). }
  assert (match w, u with
    | W3Preview, None => p2 = p1 | W3Preview, _ | _, None => False | _, Some u => number_be buf p1 4 = Some u /\ p2 = p1 + 4 end /\ p2 <= len buf) as [H2 HL2].
  { unfold rd_wave_unknown in R2. destruct (wave_unknown w) eqn:EW.
    - apply ret_inv in R2 as [<- <-]. split; [|exact HL1]. now destruct w.
    - apply bind_inv in R2 as (x & q & S & R2). apply ret_inv in R2 as [<- <-]. apply rd_be_at in S as (S & -> & HL); [|discriminate]. split; [|exact HL]. now destruct w.
    - apply bind_inv in R2 as (x & q & S & R2). apply bind_inv in R2 as (u1 & q2 & S2 & R2). apply ret_inv in R2 as [<- <-]. apply guard_inv in S2 as [_ <-].
      apply rd_be_at in S as (S & -> & HL); [|discriminate]. split; [|exact HL]. now destruct w. }
  apply (rd_count_entries _ (column_at w buf) (wave_width w)) in R3 as (G & L & -> & HE); [|intros q x q'; apply column_read|assumption].
  assert (n = len d) as -> by (rewrite L; symmetry; apply N2Nat.id). split; [|exact HE]. split; [reflexivity|].
  assert (p2 = pos + wave_data w) as -> by (destruct w, u; cbn [wave_data]; lia).
  destruct w, u; try contradiction; cbn [wave_data] in *; repeat match goal with H : _ /\ _ |- _ => destruct H end;
    assert (p1 = pos + 16 \/ p1 = pos + 20) as [->| ->] by lia; try lia; repeat (split; [assumption || exact I|]); reflexivity.
Qed.
(** Song structures. *)
Lemma song_data_read n buf pos d p : pos <= len buf -> rd_song_data n buf pos = Ok (d, p) ->
  table_at song_table buf pos (sd_values d) /\ entries_at 24 (table_at phrase_table buf) (pos + 14) (sd_phrases d) /\ len (sd_phrases d) = n /\ p = pos + 14 + 24 * n /\ p <= len buf.
Proof.
  intros HP H. unfold rd_song_data in H. apply bind_inv in H as (vs & p1 & R1 & H). apply bind_inv in H as (ps & p2 & R2 & H). apply ret_inv in H as [<- <-].
  rewrite <- (N.add_0_r pos) in R1. apply (table_read song_table) in R1 as (R1 & -> & HL); [|reflexivity|reflexivity|reflexivity|reflexivity|now rewrite N.add_0_r].
  change (fields_size song_fields) with 14 in *. rewrite N.add_0_r in *.
  apply (rd_count_entries _ (table_at phrase_table buf) 24) in R2 as (G & L & -> & HE); [| |assumption].
  - cbn [sd_values sd_phrases]. assert (len ps = n) as LN by (rewrite L; apply N2Nat.id). rewrite LN in *. now repeat split.
  - intros q x q' HQ HR. rewrite <- (N.add_0_r q) in HR. apply (table_read phrase_table) in HR as (HR & -> & HE); [|reflexivity|reflexivity|reflexivity|reflexivity|now rewrite N.add_0_r].
    rewrite N.add_0_r in *. now repeat split.
Qed.
Lemma view_masked n q buf : masked n q buf (xor_view (song_key n) q buf).
Proof.
  unfold xor_view. split; [apply len_xor_cycle|]. intros i x m HX HM. pose proof (getN_Some_lt _ _ _ HX) as L.
  assert (L2 : q + i < len (xor_cycle (song_key n) (- Z.of_N q) buf)) by (now rewrite len_xor_cycle). apply getN_lt_Some in L2 as [y HY]. rewrite HY. f_equal.
  unfold getN in *. apply nth_error_nth with (d := 0) in HY, HX. rewrite xor_cycle_nth in HY by (unfold len in L; lia). rewrite HX in HY. rewrite <- HY. f_equal.
  unfold key_at. change (len (song_key n)) with 19.
  replace (Z.to_nat ((- Z.of_N q + Z.of_nat (N.to_nat (q + i))) mod Z.of_N 19)) with (N.to_nat (i mod 19)).
  - unfold song_key. change key_data with mask_bytes. assert (N.to_nat (i mod 19) < List.length mask_bytes)%nat as LM by (apply nth_error_Some; congruence).
    rewrite (nth_indep _ 0 ((fun x => (x + n) mod 256) 0)) by (now rewrite map_length). rewrite (map_nth (fun x => (x + n) mod 256)). apply nth_error_nth with (d := 0) in HM. now rewrite HM.
  - rewrite N_nat_Z, N2Z.inj_add. replace (- Z.of_N q + (Z.of_N q + Z.of_N i))%Z with (Z.of_N i) by lia. rewrite <- N2Z.inj_mod. now rewrite <- Z_N_nat, N2Z.id.
Qed.
Lemma song_read b h buf pos s p : pos + 12 <= len buf -> rd_song b h buf (pos + 12) = Ok (s, p) ->
  number_be buf (pos + 12) 4 = Some 24 /\ number_be buf (pos + 16) 2 = Some (len (sd_phrases (so_data s))) /\
  (exists buf', (if so_encrypted s then masked (len (sd_phrases (so_data s))) (pos + 18) buf buf' else buf' = buf) /\
    table_at song_table buf' (pos + 18) (sd_values (so_data s)) /\ entries_at 24 (table_at phrase_table buf') (pos + 32) (sd_phrases (so_data s))) /\
  p = pos + 32 + 24 * len (sd_phrases (so_data s)) /\ p <= len buf.
Proof.
  intros HP H. unfold rd_song in H. apply bind_inv in H as (eb & p1 & R1 & H). apply bind_inv in H as (u1 & p2 & R2 & H). apply bind_inv in H as (n & p3 & R3 & H).
  apply bind_inv in H as (m & p4 & R4 & H). apply bind_inv in H as (cs & p5 & R5 & H). apply bind_inv in H as (u2 & p6 & R6 & H). apply bind_inv in H as (q & p7 & R7 & H).
  apply bind_inv in H as (raw & p8 & R8 & H). apply bind_inv in H as (u3 & p9 & R9 & H). apply bind_inv in H as (e & p10 & R10 & H). apply bind_inv in H as (d & p11 & R11 & H).
  apply ret_inv in H as [<- <-]. apply guard_inv in R2 as [G <-]. apply N.eqb_eq in G as ->. apply lift_eq in R4 as [_ <-]. apply lift_eq in R5 as [_ <-]. apply guard_inv in R6 as [_ <-].
  unfold tell in R7. injection R7 as <- <-. unfold seek_to in R9. injection R9 as _ <-. apply lift_eq in R10 as [_ <-].
  apply rd_be_at in R1 as (R1 & -> & _); [|discriminate]. apply rd_be_at in R3 as (R3 & -> & HL); [|discriminate]. change (N.of_nat 4) with 4 in *. change (N.of_nat 2) with 2 in *.
  cbn [so_encrypted so_data]. replace (pos + 12 + 4 + 2) with (pos + 18) in * by lia. rewrite <- N.add_assoc in R3. change (12 + 4) with 16 in R3.
  assert (exists buf', len buf' = len buf /\ (if e then masked n (pos + 18) buf buf' else buf' = buf) /\ rd_song_data n buf' (pos + 18) = Ok (d, p11)) as (buf' & LB & HM & HD).
  { unfold rd_encrypted in R11. destruct e; [|now exists buf]. apply bind_inv in R11 as (key & q & K & R). apply lift_eq in K as [K <-]. apply get_key_val in K.
    change (takeN 19 (song_key n)) with (song_key n) in K. subst key. pose proof (view_masked n (pos + 18) buf) as V. eexists. split; [apply V|]. split; [apply V|exact R]. }
  apply song_data_read in HD as (D1 & D2 & D3 & -> & HE); [|rewrite LB; exact HL]. rewrite D3. replace (pos + 18 + 14) with (pos + 32) in * by lia. rewrite LB in HE.
  split; [exact R1|]. split; [exact R3|]. split; [|now split]. exists buf'. now repeat split.
Qed.
(** Sections. *)
Lemma nullwide_read buf pos u p : bytes_ok buf -> rd_nullwide buf pos = Ok (u, p) ->
  (forall i x, getN u i = Some x -> x <> 0 /\ number_be buf (pos + 2 * i) 2 = Some x) /\ number_be buf (pos + 2 * len u) 2 = Some 0 /\ p = pos + 2 * len u + 2 /\ p <= len buf.
Proof.
  intros HB H. unfold rd_nullwide in H. apply until0_be2_inv in H as (HU & HH & ->); [|assumption]. pose proof (has_len _ _ _ HH) as HL.
  assert (len (flat_map (be_enc 2) u) = 2 * len u) as LU.
  { clear. induction u as [|x u IH]; [reflexivity|]. cbn [flat_map]. rewrite len_app, IH, len_cons. change (len (be_enc 2 x)) with 2. lia. }
  rewrite len_app, LU in HL. change (len [0; 0]) with 2 in HL. split; [|split; [|split; [reflexivity|lia]]].
  - intros i x HX. split; [unfold getN in HX; apply nth_error_In in HX; rewrite Forall_forall in HU; apply HU in HX; lia|].
    apply (units_at buf _ pos i x HH). rewrite be_units_enc by (eapply Forall_impl; [|exact HU]; cbn; intros; lia).
    rewrite getN_app. pose proof (getN_Some_lt _ _ _ HX) as L. apply N.ltb_lt in L. now rewrite L.
  - apply has_app in HH as [_ HH]. rewrite LU in HH. now apply (number_be_of _ _ _ 2) in HH.
Qed.
Lemma type_read buf pos v p : rd_field (fail EIo) cue_list_type buf pos = Ok (v, p) -> exists t, v = VNamed t /\ t <= 1 /\ number_be buf pos 4 = Some t /\ p = pos + 4.
Proof.
  intro H. cbn [rd_field cue_list_type] in H. apply bind_inv in H as (x & p1 & R & H). apply bind_inv in H as (u & p2 & G & H). apply ret_inv in H as [<- <-].
  apply guard_inv in G as [G <-]. apply rd_be_at in R as (R & -> & _); [|discriminate]. exists x. split; [reflexivity|]. split; [|now split].
  cbn [mem existsb] in G. lia.
Qed.
Ltac pos_lit p := match p with xH => idtac | xO ?q => pos_lit q | xI ?q => pos_lit q end.
Ltac lit a := match a with Npos ?p => pos_lit p end.
Ltac norm pos := repeat match goal with
  | H : context [pos + ?a + ?c] |- _ => lit a; lit c; let n := eval vm_compute in (a + c) in replace (pos + a + c) with (pos + n) in * by (rewrite <- N.add_assoc; reflexivity)
  end.
Lemma beat_read (b : build) h buf pos c p : bytes_ok buf -> len buf < 2 ^ 32 -> pos + 12 <= len buf -> h_kind h = KBeatGrid -> rd_beat_grid buf (pos + 12) = Ok (c, p) -> content_at buf pos h c p /\ p <= len buf.
Proof.
  intros HB HM HP K H. unfold rd_beat_grid in H. apply bind_inv in H as (u1 & p1 & R1 & H). apply bind_inv in H as (u2 & p2 & R2 & H). apply bind_inv in H as (n & p3 & R3 & H).
  apply bind_inv in H as (l & p4 & R4 & H). apply ret_inv in H as [<- <-]. apply rd_be_at in R1 as (R1 & -> & _); [|discriminate].
  apply rd_be_at in R2 as (R2 & -> & _); [|discriminate]. apply rd_be_at in R3 as (R3 & -> & HL); [|discriminate]. change (N.of_nat 4) with 4 in *.
  apply (rd_count_entries _ (table_at beat_table buf) 8) in R4 as (G & L & -> & HE); [| |assumption].
  - assert (n = len l) as -> by (rewrite L; symmetry; apply N2Nat.id). norm pos. cbn [content_at]. now repeat split.
  - intros q x q' HQ HR. rewrite <- (N.add_0_r q) in HR. apply (table_read beat_table) in HR as (HR & -> & HE); [|reflexivity|reflexivity|reflexivity|reflexivity|now rewrite N.add_0_r].
    rewrite N.add_0_r in *. now repeat split.
Qed.
Lemma cuel_read (b : build) h buf pos c p : bytes_ok buf -> len buf < 2 ^ 32 -> pos + 12 <= len buf -> h_kind h = KCueList -> rd_cue_list buf (pos + 12) = Ok (c, p) -> content_at buf pos h c p /\ p <= len buf.
Proof.
  intros HB HM HP K H. unfold rd_cue_list in H. apply bind_inv in H as (ty & p1 & R1 & H). apply bind_inv in H as (u & p2 & R2 & H). apply bind_inv in H as (n & p3 & R3 & H).
  apply bind_inv in H as (mc & p4 & R4 & H). apply bind_inv in H as (l & p5 & R5 & H). apply ret_inv in H as [<- <-]. apply type_read in R1 as (t & -> & T1 & T2 & ->).
  apply rd_be_at in R2 as (R2 & -> & _); [|discriminate]. apply rd_be_at in R3 as (R3 & -> & _); [|discriminate]. apply rd_be_at in R4 as (R4 & -> & HL); [|discriminate].
  change (N.of_nat 4) with 4 in *. change (N.of_nat 2) with 2 in *.
  apply (rd_count_entries _ (cue_at buf) 56) in R5 as (G & L & -> & HE); [|intros q x q' _; now apply cue_read|assumption].
  assert (n = len l) as -> by (rewrite L; symmetry; apply N2Nat.id). norm pos. cbn [content_at]. split; [|exact HE]. split; [assumption|]. split; [now exists t|]. repeat (split; [assumption || reflexivity|]). assumption || reflexivity.
Qed.
Lemma ecuel_read (b : build) h buf pos c p : bytes_ok buf -> len buf < 2 ^ 32 -> pos + 12 <= len buf -> h_kind h = KExtendedCueList -> (rd_ecue_list b) buf (pos + 12) = Ok (c, p) -> content_at buf pos h c p /\ p <= len buf.
Proof.
  intros HB HM HP K H. unfold rd_ecue_list in H. apply bind_inv in H as (ty & p1 & R1 & H). apply bind_inv in H as (n & p2 & R2 & H). apply bind_inv in H as (u & p3 & R3 & H).
  apply bind_inv in H as (u1 & p4 & R4 & H). apply bind_inv in H as (l & p5 & R5 & H). apply ret_inv in H as [<- <-]. apply type_read in R1 as (t & -> & T1 & T2 & ->).
  apply rd_be_at in R2 as (R2 & -> & _); [|discriminate]. apply rd_be_at in R3 as (R3 & -> & HL); [|discriminate]. apply guard_inv in R4 as [G <-]. apply N.eqb_eq in G as ->.
  change (N.of_nat 4) with 4 in *. change (N.of_nat 2) with 2 in *.
  apply (rd_count_chain _ (ecue_at buf)) in R5 as (G & L & HE); [|intros q x q' _; now apply ecue_read|assumption].
  assert (n = len l) as -> by (rewrite L; symmetry; apply N2Nat.id). norm pos. cbn [content_at]. split; [|exact HE]. split; [assumption|]. split; [now exists t|]. repeat (split; [assumption || reflexivity|]). assumption || reflexivity.
Qed.
Lemma path_read (b : build) h buf pos c p : bytes_ok buf -> len buf < 2 ^ 32 -> pos + 12 <= len buf -> h_kind h = KPath -> (rd_path b h) buf (pos + 12) = Ok (c, p) -> content_at buf pos h c p /\ p <= len buf.
Proof.
  intros HB HM HP K H. unfold rd_path in H. apply bind_inv in H as (n & p1 & R1 & H). apply bind_inv in H as (cs & p2 & R2 & H). apply bind_inv in H as (u1 & p3 & R3 & H). apply bind_inv in H as (l & p4 & R4 & H).
  apply bind_inv in H as (cs2 & p5 & R5 & H). apply bind_inv in H as (u2 & p6 & R6 & H). apply bind_inv in H as (m & p7 & R7 & H). apply bind_inv in H as (u3 & p8 & R8 & H).
  apply ret_inv in H as [<- <-]. apply lift_eq in R2 as [_ <-]. apply guard_inv in R3 as [_ <-]. apply lift_eq in R5 as [_ <-]. apply guard_inv in R6 as [_ <-].
  apply lift_eq in R7 as [R7 <-]. apply guard_inv in R8 as [G <-]. apply N.eqb_eq in G as ->. apply rd_be_at in R1 as (R1 & -> & HL); [|discriminate]. change (N.of_nat 4) with 4 in *.
  apply nullwide_read in R4 as (G1 & G2 & -> & HE); [|assumption].
  assert (n = 2 * len l + 2) as ->.
  { rewrite path_size_ok in R7 by lia. apply Ok_eq in R7. lia. }
  split; [|exact HE]. replace (pos + 12 + 4) with (pos + 16) in * by lia. cbn [content_at]. split; [assumption|]. split; [exact R1|]. split; [exact G1|]. split; [exact G2|]. lia.
Qed.
Lemma vbr_read (b : build) h buf pos c p : bytes_ok buf -> len buf < 2 ^ 32 -> pos + 12 <= len buf -> h_kind h = KVBR -> (rd_vbr b h) buf (pos + 12) = Ok (c, p) -> content_at buf pos h c p /\ p <= len buf.
Proof.
  intros HB HM HP K H. unfold rd_vbr in H. apply bind_inv in H as (u & p1 & R1 & H). apply bind_inv in H as (n & p2 & R2 & H). apply bind_inv in H as (d & p3 & R3 & H). apply ret_inv in H as [<- <-].
  apply lift_eq in R2 as [_ <-]. apply rd_be_at in R1 as (R1 & -> & HL); [|discriminate]. change (N.of_nat 4) with 4 in *. apply rd_bytes_at in R3 as (R3 & <- & -> & HE); [|assumption].
  norm pos. cbn [content_at]. now repeat split.
Qed.
Lemma content_read (b : build) h buf pos c p : bytes_ok buf -> len buf < 2 ^ 32 -> pos + 12 <= len buf -> rd_content b h buf (pos + 12) = Ok (c, p) -> content_at buf pos h c p /\ p <= len buf.
Proof.
  intros HB HM HP H. unfold rd_content in H.
  assert (forall w, bind (rd_wave b h w) (fun f => ret (CWave f)) buf (pos + 12) = Ok (c, p) -> exists f, c = CWave f /\ wave_at buf pos w f p /\ p <= len buf) as HW.
  { intros w HR. apply bind_inv in HR as (f & p1 & R & E). apply ret_inv in E as [<- <-]. exists f. split; [reflexivity|]. now apply wave_read in R. }
  destruct (h_kind h) eqn:K; try discriminate.
  - now apply (beat_read b h) in H.
  - now apply (cuel_read b h) in H.
  - now apply (ecuel_read b h) in H.
  - now apply (path_read b h) in H.
  - now apply (vbr_read b h) in H.
  - apply HW in H as (f & -> & H). cbn [content_at]. now rewrite K.
  - apply HW in H as (f & -> & H). cbn [content_at]. now rewrite K.
  - apply HW in H as (f & -> & H). cbn [content_at]. now rewrite K.
  - apply HW in H as (f & -> & H). cbn [content_at]. now rewrite K.
  - apply HW in H as (f & -> & H). cbn [content_at]. now rewrite K.
  - apply HW in H as (f & -> & H). cbn [content_at]. now rewrite K.
  - apply HW in H as (f & -> & H). cbn [content_at]. now rewrite K.
  - apply bind_inv in H as (s & p1 & R & H). apply ret_inv in H as [<- <-]. apply song_read in R as (S1 & S2 & S3 & S4 & S5); [|assumption]. cbn [content_at]. now repeat split.
  - unfold rd_unknown in H. apply bind_inv in H as (n & p1 & R1 & H). apply bind_inv in H as (hd & p2 & R2 & H). apply bind_inv in H as (m & p3 & R3 & H). apply bind_inv in H as (d & p4 & R4 & H).
    apply ret_inv in H as [<- <-]. apply lift_eq in R1 as [_ <-]. apply lift_eq in R3 as [_ <-]. apply rd_bytes_at in R2 as (R2 & <- & -> & HL); [|assumption].
    apply rd_bytes_at in R4 as (R4 & <- & -> & HE); [|assumption]. cbn [content_at]. split; [|exact HE]. split; [now exists c0|]. split; [|reflexivity]. apply has_app. now split.
Qed.
Lemma section_read b buf pos s p : bytes_ok buf -> len buf < 2 ^ 32 -> rd_section b buf pos = Ok (s, p) -> section_at buf pos s p /\ p <= len buf.
Proof.
  intros HB HM H. unfold rd_section in H. apply bind_inv in H as (h & p1 & R1 & H). apply bind_inv in H as (c & p2 & R2 & H). apply ret_inv in H as [<- <-].
  apply header_read in R1 as (R1 & -> & HL); [|assumption]. apply content_read in R2 as [R2 HE]; [|assumption|assumption|assumption]. split; [now split|exact HE].
Qed.
Lemma loop_chain b final buf : bytes_ok buf -> len buf < 2 ^ 32 -> forall fuel pos l p, sections_loop fuel b final buf pos = Some (Ok (l, p)) -> chain_at (section_at buf) pos l p.
Proof.
  intros HB HM. induction fuel as [|fuel IH]; intros pos l p H; [discriminate|]. cbn [sections_loop] in H. destruct (pos <? final).
  - destruct (rd_section b buf pos) as [[s q]| |] eqn:R; [|discriminate|discriminate]. destruct (sections_loop fuel b final buf q) as [[[r p']| |]|] eqn:L; try discriminate.
    assert (s :: r = l) as <- by congruence. assert (p' = p) as <- by congruence. apply section_read in R as [R _]; [|assumption|assumption]. exists q. split; [exact R|now apply IH].
  - assert (l = []) as -> by congruence. assert (p = pos) as -> by congruence. reflexivity.
Qed.
Lemma file_read b buf pos a p : bytes_ok buf -> len buf + 12 < 2 ^ 32 -> rd_anlz b buf pos = Ok (a, p) -> file_at buf pos a p.
Proof.
  intros HB HM H. unfold rd_anlz in H. apply bind_inv in H as (h & p1 & R1 & H). apply bind_inv in H as (u & p2 & R2 & H). apply bind_inv in H as (n & p3 & R3 & H).
  apply bind_inv in H as (hd & p4 & R4 & H). apply bind_inv in H as (m & p5 & R5 & H). apply bind_inv in H as (ss & p6 & R6 & H). apply ret_inv in H as [<- <-].
  apply guard_inv in R2 as [G <-]. apply lift_eq in R3 as [R3 <-]. apply lift_eq in R5 as [_ <-]. apply header_read in R1 as (R1 & -> & HL); [|assumption].
  apply rd_bytes_at in R4 as (R4 & LH & -> & HE); [|assumption]. split; [exact R1|]. split; [cbn [an_header]; revert G; now destruct (h_kind h)|]. split; [exact R4|]. cbn [an_header an_header_data an_sections].
  assert (h_size h = 12 + n) as HS.
  { unfold remaining_size, wsub in R3. destruct (12 <=? h_size h) eqn:E; [apply Ok_eq in R3; lia|]. destruct b; cbn [ovf] in R3; [discriminate|]. apply Ok_eq in R3.
    change (2 ^ 32) with 4294967296 in *. rewrite N.mod_small in R3 by lia. lia. }
  split; [now rewrite LH|]. rewrite HS, N.add_assoc. unfold parse_sections in R6. destruct (wadd b 64 (pos + 12 + n) m) as [f| |]; [|discriminate|discriminate].
  destruct (sections_loop _ _ _ _ _) as [[[l q]| |]|] eqn:SL; try discriminate. assert (l = ss) as <- by congruence. assert (q = p6) as <- by congruence.
  apply loop_chain in SL; [exact SL|assumption|]. eapply N.le_lt_trans; [|exact HM]. apply N.le_add_r.
Qed.
