(** * Which strings and rows of databases are accepted, what they say and where they end

    Facts about the readers of src/pdb (modelled in [Str.v], [Oa.v], [Rows.v]); no further code of /repo is modelled here. *)
From Coq Require Import NArith ZArith List Bool Lia.
From Coq Require Import ZifyBool ZifyNat ZifyN.
From Verif Require Import Base BaseFacts Str StrFacts Schema SchemaFacts Oa OaFacts Rows Layout LayoutDb.
Import ListNotations.
Open Scope N_scope.

(** ** Spec *)
(** The size of the text in a long string: the stored size counts four bytes before it.  A smaller one panics in debug builds and wraps in release builds. *)
Definition long_size (b : build) (n : N) : option N := if 4 <=? n then Some (n - 4) else match b with Debug => None | Release => Some (n + 65532) end.
(** The body of an ISRC: a 3 and text up to the first zero. *)
Definition isrc_in (buf : list N) (pos : N) (s : list N) : Prop := getN buf pos = Some 3 /\ ~ In 0 s /\ has buf (pos + 1) (s ++ [0]).
Definition units_at (buf : list N) (pos : N) (us : list N) : Prop := forall i u, getN us i = Some u -> number buf (pos + 2 * i) 2 = Some u.
(** A string from [pos] to [fin].  Where an ISRC can be read, no UCS-2 text is. *)
Inductive string_in (b : build) (buf : list N) (pos : N) : dstr -> N -> Prop :=
| string_short s : getN buf pos = Some (2 * len s + 3) -> has buf (pos + 1) s -> string_in b buf pos (DSShort s) (pos + 1 + len s)
| string_isrc n l s : getN buf pos = Some 0x90 -> number buf (pos + 1) 2 = Some n -> long_size b n = Some l -> getN buf (pos + 3) = Some 0 -> isrc_in buf (pos + 4) s ->
    string_in b buf pos (DSIsrc s) (pos + 6 + len s)
| string_ascii n s : getN buf pos = Some 0x40 -> number buf (pos + 1) 2 = Some n -> long_size b n = Some (len s) -> getN buf (pos + 3) = Some 0 -> has buf (pos + 4) s ->
    string_in b buf pos (DSAscii s) (pos + 4 + len s)
| string_ucs2 n us : getN buf pos = Some 0x90 -> number buf (pos + 1) 2 = Some n -> long_size b n = Some (2 * len us) -> getN buf (pos + 3) = Some 0 ->
    ~ (exists s, isrc_in buf (pos + 4) s) -> units_at buf (pos + 4) us -> string_in b buf pos (DSUcs2 us) (pos + 4 + 2 * len us).

(** What rows consist of: numbers of some bytes, the code of a color, constants, strings. *)
Inductive item := INum (w : nat) | IColor | IFixed (w : nat) (m : N) | IText.
Definition row_items (k : rkind) : list item :=
  match k with
  | KAlbum => [INum 2; INum 2; INum 4; INum 4; INum 4; INum 4]
  | KArtist => [INum 2; INum 2; INum 4]
  | KArtwork | KGenre | KLabel | KHistoryPlaylist => [INum 4; IText]
  | KColor => [INum 4; INum 1; IColor; INum 2; IText]
  | KHistoryEntry | KPlaylistEntry => [INum 4; INum 4; INum 4]
  | KHistory => [INum 2; INum 2; INum 4; IFixed 4 0; IText; IFixed 2 0x1E19; IText; IText]
  | KKey => [INum 4; INum 4; IText]
  | KPlaylistTreeNode => [INum 4; INum 4; INum 4; INum 4; INum 4; IText]
  | KColumnEntry => [INum 2; INum 2; IText]
  | KMenu => [INum 2; INum 2; INum 1; INum 1; INum 2]
  | KTrack => [INum 2; INum 2] ++ repeat (INum 4) 5 ++ [INum 2; INum 2] ++ repeat (INum 4) 12 ++ repeat (INum 2) 6 ++ [IColor; INum 1; INum 2]
  | KTag => [INum 2; INum 2] ++ repeat (INum 4) 6
  | KTrackTag => [IFixed 4 0; INum 4; INum 4; INum 4]
  end.
(** Rows with strings found by offsets: how far from the start of the row the offsets are, and the number of strings. *)
Definition offsets_at (k : rkind) : option (N * N) := match k with KAlbum => Some (20, 1) | KArtist => Some (8, 1) | KTrack => Some (92, 21) | KTag => Some (28, 2) | _ => None end.
Fixpoint items_in (b : build) (buf : list N) (is : list item) (pos : N) (ns : list N) (ds : list dstr) (fin : N) : Prop :=
  match is with
  | [] => ns = [] /\ ds = [] /\ fin = pos
  | INum w :: r => exists x ns', number buf pos w = Some x /\ ns = x :: ns' /\ items_in b buf r (pos + N.of_nat w) ns' ds fin
  | IColor :: r => exists x ns', getN buf pos = Some x /\ x <= 8 /\ ns = x :: ns' /\ items_in b buf r (pos + 1) ns' ds fin
  | IFixed w m :: r => number buf pos w = Some m /\ items_in b buf r (pos + N.of_nat w) ns ds fin
  | IText :: r => exists d ds' q, string_in b buf pos d q /\ ds = d :: ds' /\ items_in b buf r q ns ds' fin
  end.
(** A row with the numbers [ns] and the strings [ds].  Offsets count from the start of the row; they are two bytes wide if bit 2 of the first number is set, and are preceded by a 3 of the same
    width.  The reader of such a row goes back to its start. *)
Definition row_in (b : build) (k : rkind) (buf : list N) (pos : N) (ns : list N) (ds : list dstr) (fin : N) : Prop :=
  match offsets_at k with
  | None => items_in b buf (row_items k) pos ns ds fin
  | Some (base, n) => exists s w, items_in b buf (row_items k) pos ns [] (pos + base) /\ number buf pos 2 = Some s /\ w = (if N.testbit s 2 then 2%nat else 1%nat) /\
      number buf (pos + base) w = Some 3 /\ len ds = n /\ fin = pos /\
      forall i d, getN ds i = Some d -> exists o e, number buf (pos + base + N.of_nat w * (i + 1)) w = Some o /\ string_in b buf (pos + o) d e
  end.
(** What a row says. *)
Definition row_says (r : row) (k : rkind) (ns : list N) (ds : list dstr) : Prop :=
  match r with
  | RRow k' vs c => k' = k /\ numbers vs = ns /\ texts vs ++ match c with Some a => oa_items a | None => [] end = ds
  | RUnknown => False
  end.

(** ** Strings *)
Lemma number_len buf : forall n pos x, n <> 0%nat -> number buf pos n = Some x -> pos + N.of_nat n <= len buf.
Proof.
  induction n as [|n IH]; intros pos x HN H; [easy|]. cbn [number] in H. destruct (getN buf pos) as [a|] eqn:E; [|discriminate]. apply getN_Some_lt in E.
  destruct n as [|n]; [lia|]. destruct (number buf (pos + 1) (S n)) as [y|] eqn:EY; [|discriminate]. apply IH in EY; [lia|discriminate].
Qed.
Lemma rd_le_at_total n buf pos x : n <> 0%nat -> number buf pos n = Some x -> rd_le n buf pos = Ok (x, pos + N.of_nat n).
Proof.
  intros HN H. apply number_len in H as HL; [|exact HN]. pose proof (has_take_drop buf pos (N.of_nat n) HL) as HT. set (bs := takeN (N.of_nat n) (dropN pos buf)) in *.
  assert (len bs = N.of_nat n) as L by (unfold bs; rewrite len_takeN, len_dropN; lia). unfold rd_le, bind. rewrite <- L, rd_bytes_has by exact HT. unfold ret.
  apply number_has in HT. replace (length bs) with n in HT by (unfold len in L; lia). congruence.
Qed.
Lemma rd_le_exact n buf pos x q : n <> 0%nat -> rd_le n buf pos = Ok (x, q) <-> number buf pos n = Some x /\ q = pos + N.of_nat n.
Proof. intro HN. split; [now apply rd_le_number|]. intros [H ->]. now apply rd_le_at_total. Qed.
Lemma number_1 buf pos : number buf pos 1 = getN buf pos.
Proof. cbn [number]. destruct (getN buf pos); [|reflexivity]. f_equal. lia. Qed.
Lemma wsub_size b n : n < 65536 -> forall l, wsub b 16 n 4 = Ok l <-> long_size b n = Some l.
Proof.
  intros HN l. unfold wsub, long_size, ovf. destruct (4 <=? n) eqn:E; [split; congruence|]. destruct b; [easy|]. change (2 ^ 16) with 65536.
  replace ((n + 65536 - 4) mod 65536) with (n + 65532) by (rewrite N.mod_small by lia; lia). split; congruence.
Qed.
Lemma units_read buf : forall us pos, units_at buf pos us -> rd_count (length us) (rd_le 2) buf pos = Ok (us, pos + 2 * len us).
Proof.
  induction us as [|u us IH]; intros pos H; cbn [rd_count length]; [change (len (@nil N)) with 0; unfold ret; now replace (pos + 2 * 0) with pos by lia|].
  unfold bind. pose proof (H 0 u (getN_0 _ _)) as H0. rewrite N.mul_0_r, N.add_0_r in H0. rewrite (rd_le_at_total 2 buf pos u ltac:(discriminate) H0). change (N.of_nat 2) with 2.
  rewrite IH; [unfold ret; rewrite len_cons; now replace (pos + 2 + 2 * len us) with (pos + 2 * (1 + len us)) by lia|].
  intros i x HX. specialize (H (i + 1) x). rewrite getN_cons in H. replace (i + 1 =? 0) with false in H by lia. replace (i + 1 - 1) with i in H by lia. specialize (H HX). now replace (pos + 2 + 2 * i) with (pos + 2 * (i + 1)) by lia.
Qed.
Lemma isrc_exact buf pos d q : (let* _ <- magic_le 1 3; let* s <- rd_nullstring; ret (DSIsrc s)) buf pos = Ok (d, q) <-> exists s, d = DSIsrc s /\ isrc_in buf pos s /\ q = pos + 2 + len s.
Proof.
  split.
  - intro H. apply bind_inv in H as (u & p1 & M & H). apply magic_le_number in M as [M ->]; [|discriminate]. rewrite number_1 in M. apply bind_inv in H as (s & p2 & S & H). apply ret_inv in H as [<- <-].
    apply rd_nullstring_inv in S as (F & S & ->). exists s. split; [reflexivity|]. change (N.of_nat 1) with 1 in *. split; [|lia]. split; [exact M|]. split; [|exact S]. intro I. rewrite Forall_forall in F. now apply (F 0).
  - intros (s & -> & (H3 & HZ & HS) & ->). unfold bind, magic_le, bind. change (rd_le 1) with rd_u8. rewrite (rd_u8_get buf pos 3 H3). cbn [N.eqb Pos.eqb guard ret]. unfold ret.
    rewrite (rd_nullstring_has buf s (pos + 1)); [now replace (pos + 1 + len s + 1) with (pos + 2 + len s) by lia| |exact HS]. apply Forall_forall. intros x HX ->. contradiction.
Qed.
Lemma isrc_err buf pos : ~ (exists s, isrc_in buf pos s) -> exists e, (let* _ <- magic_le 1 3; let* s <- rd_nullstring; ret (DSIsrc s)) buf pos = Err e.
Proof.
  intro HN. destruct ((let* _ <- magic_le 1 3; let* s <- rd_nullstring; ret (DSIsrc s)) buf pos) as [[d q]|e|] eqn:E; [|now exists e|].
  - apply isrc_exact in E as (s & _ & E & _). destruct HN. now exists s.
  - exfalso. unfold magic_le, bind in E. change (rd_le 1) with rd_u8 in E. destruct (getN buf pos) as [x|] eqn:G; [rewrite (rd_u8_get _ _ _ G) in E|rewrite (rd_u8_none _ _ G) in E; discriminate].
    unfold guard in E. destruct (x =? 3); [|discriminate]. unfold ret in E. destruct (rd_nullstring buf (pos + 1)) as [[y z]| |] eqn:R; try discriminate. destruct (rd_nullstring_no_panic buf (pos + 1) R).
Qed.
Lemma guard_bind {A} c e (f : unit -> parser A) buf pos : bind (guard c e) f buf pos = if c then f tt buf pos else Err e.
Proof. unfold bind, guard. now destruct c. Qed.
Lemma long_exact flags l buf pos d q : pos <= len buf ->
  (rd_longbody flags l buf pos = Ok (d, q) <->
   (flags = 0x90 /\ exists s, d = DSIsrc s /\ isrc_in buf pos s /\ q = pos + 2 + len s) \/
   (flags = 0x40 /\ exists s, d = DSAscii s /\ l = len s /\ has buf pos s /\ q = pos + len s) \/
   (flags = 0x90 /\ exists us, d = DSUcs2 us /\ l = 2 * len us /\ ~ (exists s, isrc_in buf pos s) /\ units_at buf pos us /\ q = pos + 2 * len us)).
Proof.
  intro HP. unfold rd_longbody, orelse. do 3 rewrite guard_bind. destruct (flags =? 0x90) eqn:E9.
  - apply N.eqb_eq in E9 as ->. destruct ((let* _ <- magic_le 1 3; let* s <- rd_nullstring; ret (DSIsrc s)) buf pos) as [[d' q']|e|] eqn:EI.
    + apply isrc_exact in EI as HI. destruct HI as (s & -> & HI & ->). split.
      * intro H. left. split; [reflexivity|]. exists s. split; [congruence|]. split; [exact HI|congruence].
      * intros [(_ & H)|[(F & _)|(_ & us & _ & _ & H & _)]]; [|discriminate|destruct H; now exists s]. apply isrc_exact in H. congruence.
    + assert (~ exists s, isrc_in buf pos s) as NI. { intros [s HI]. assert (exists d q, (let* _ <- magic_le 1 3; let* s <- rd_nullstring; ret (DSIsrc s)) buf pos = Ok (d, q)) as (d' & q' & X); [|congruence]. exists (DSIsrc s), (pos + 2 + len s). apply isrc_exact. now exists s. }
      replace (0x90 =? 0x40) with false by reflexivity. rewrite guard_bind. split.
      * intro H. right. right. split; [reflexivity|]. destruct (l mod 2 =? 0) eqn:EL; [|discriminate]. apply bind_inv in H as (us & p & R & H). apply ret_inv in H as [<- <-].
        apply (rd_count_numbers LE 2 buf ltac:(discriminate)) in R as (L & -> & G). exists us. assert (l = 2 * len us) as LL by (unfold len; lia). split; [reflexivity|]. split; [exact LL|]. split; [exact NI|]. split; [exact G|]. unfold len in *. lia.
      * intros [(_ & s & _ & H & _)|[(F & _)|(_ & us & -> & -> & _ & G & ->)]]; [destruct NI; now exists s|discriminate|]. replace ((2 * len us) mod 2 =? 0) with true by lia.
        unfold bind. replace (N.to_nat (2 * len us / 2)) with (length us) by (unfold len; lia). now rewrite (units_read buf us pos G).
    + exfalso. destruct (isrc_err buf pos) as [e X]; [|congruence]. intros [s HI]. assert ((let* _ <- magic_le 1 3; let* s <- rd_nullstring; ret (DSIsrc s)) buf pos = Ok (DSIsrc s, pos + 2 + len s)) as X; [|congruence]. apply isrc_exact. now exists s.
  - assert (flags <> 0x90) as N9 by lia. destruct (flags =? 0x40) eqn:E4.
    + apply N.eqb_eq in E4 as ->. unfold bind at 1. split.
      * destruct (rd_bytes l buf pos) as [[v p]|e|] eqn:R; [|discriminate|discriminate]. intro H. apply (ret_inv _ _ buf) in H as [<- <-]. right. left. split; [reflexivity|].
        apply rd_bytes_inv in R as (L & -> & [Z|HH]).
        -- exists v. split; [reflexivity|]. split; [easy|]. split; [|lia]. rewrite Z in L. rewrite (len_0_nil v L). now apply has_nil.
        -- exists v. split; [reflexivity|]. split; [easy|]. split; [exact HH|lia].
      * intros [(F & _)|[(_ & s & -> & -> & HH & ->)|(F & _)]]; [discriminate| |discriminate]. now rewrite (rd_bytes_has buf pos s HH).
    + assert (flags <> 0x40) as N4 by lia. split; [discriminate|]. intros [(F & _)|[(F & _)|(F & _)]]; contradiction.
Qed.
Lemma string_exact b buf pos d fin : bytes_ok buf -> len buf < 2 ^ 64 -> (rd_dstr b buf pos = Ok (d, fin) <-> string_in b buf pos d fin).
Proof.
  intros HB H64. unfold rd_dstr, orelse. destruct (getN buf pos) as [h|] eqn:EH.
  2: { unfold rd_dstr_short, rd_dstr_long, bind at 1. rewrite (rd_u8_none _ _ EH). unfold bind. rewrite (rd_u8_none _ _ EH). split; [discriminate|]. intro H. inversion H; congruence. }
  pose proof (bytes_ok_get _ _ _ HB EH) as H256. apply getN_Some_lt in EH as HP. unfold rd_dstr_short, bind at 1. rewrite (rd_u8_get _ _ _ EH), guard_bind, land1_mod, N.shiftr_div_pow2. change (2 ^ 1) with 2.
  destruct (h mod 2 =? 1) eqn:EO.
  - assert (rd_dstr_long b buf pos = Ok (d, fin) -> False) as HL.
    { intro H. unfold rd_dstr_long, bind at 1 in H. rewrite (rd_u8_get _ _ _ EH), guard_bind, land1_mod in H. replace (h mod 2 =? 0) with false in H by lia. discriminate. }
    unfold bind at 1, lift at 1. unfold wsub, ovf. destruct (1 <=? h / 2) eqn:E1.
    + unfold bind at 1. split.
      * destruct (rd_bytes (h / 2 - 1) buf (pos + 1)) as [[v p]|e|] eqn:R; [|intro H; destruct (HL H)|discriminate]. intro H. apply (ret_inv _ _ buf) in H as [<- <-]. apply rd_bytes_inv in R as (L & -> & HH). rewrite <- L.
        apply string_short; [rewrite L, EH; f_equal; lia|]. destruct HH as [Z|HH]; [|exact HH]. rewrite Z in L. rewrite (len_0_nil v L). apply has_nil. lia.
      * intro H. inversion H as [s G HS|n l s G|n s G|n us G]; subst; rewrite EH in G; [|injection G as ->; discriminate|injection G as ->; discriminate|injection G as ->; discriminate].
        assert (h = 2 * len s + 3) as Hh by congruence. replace (h / 2 - 1) with (len s) by lia. now rewrite (rd_bytes_has _ _ _ HS).
    + assert (h = 1) as -> by lia. split; [|intro H; inversion H as [s G HS|n l s G|n s G|n us G]; subst; rewrite EH in G; [injection G as G; lia|discriminate|discriminate|discriminate]].
      destruct b; [discriminate|]. change ((1 / 2 + 2 ^ 64 - 1) mod 2 ^ 64) with (2 ^ 64 - 1). unfold bind at 1. rewrite rd_bytes_eof by lia. intro H. destruct (HL H).
  - unfold rd_dstr_long. unfold bind at 1. rewrite (rd_u8_get _ _ _ EH), guard_bind, land1_mod. replace (h mod 2 =? 0) with true by lia. split.
    + intro H. apply bind_inv in H as (n & p1 & R & H). apply rd_le_exact in R as (R & ->); [|discriminate]. change (N.of_nat 2) with 2 in H. apply bind_inv in H as (l & p2 & W & H). apply lift_eq in W as [W <-].
      apply bind_inv in H as (u & p3 & M & H). apply magic_le_number in M as [M ->]; [|discriminate]. rewrite number_1 in M. change (N.of_nat 1) with 1 in H. replace (pos + 1 + 2) with (pos + 3) in * by lia. replace (pos + 3 + 1) with (pos + 4) in * by lia.
      apply wsub_size in W; [|now apply (number_lt buf HB 2 (pos + 1) n)]. apply getN_Some_lt in M as LM. apply long_exact in H; [|lia]. destruct H as [(-> & s & -> & I & ->)|[(-> & s & -> & -> & HS & ->)|(-> & us & -> & -> & NI & U & ->)]].
      * replace (pos + 4 + 2 + len s) with (pos + 6 + len s) by lia. now apply string_isrc with n l.
      * now apply string_ascii with n.
      * now apply string_ucs2 with n.
    + intro H. assert (forall n l, number buf (pos + 1) 2 = Some n -> long_size b n = Some l -> getN buf (pos + 3) = Some 0 ->
        (let* length <- rd_le 2; let* l <- lift (wsub b 16 length 4); let* _ <- magic_le 1 0; rd_longbody h l) buf (pos + 1) = rd_longbody h l buf (pos + 4)) as HR.
      { intros n l R W M. unfold bind at 1. rewrite (rd_le_at_total 2 buf (pos + 1) n ltac:(discriminate) R). apply wsub_size in W; [|now apply (number_lt buf HB 2 (pos + 1) n)]. unfold bind at 1, lift. rewrite W.
        change (N.of_nat 2) with 2. replace (pos + 1 + 2) with (pos + 3) by lia. unfold bind at 1, magic_le, bind at 1. change (rd_le 1) with rd_u8. rewrite (rd_u8_get _ _ _ M). unfold guard, ret. cbn [N.eqb]. now replace (pos + 3 + 1) with (pos + 4) by lia. }
      inversion H as [s G HS|n l s G R W M I|n s G R W M HS|n us G R W M NI U]; subst; rewrite EH in G; [assert (h = 2 * len s + 3) by congruence; exfalso; lia|assert (h = 0x90) as -> by congruence|assert (h = 0x40) as -> by congruence|assert (h = 0x90) as -> by congruence]; rewrite (HR n _ R W M); apply getN_Some_lt in M as LM; apply long_exact; try lia.
      * left. split; [reflexivity|]. exists s. split; [reflexivity|]. split; [exact I|lia].
      * right. left. split; [reflexivity|]. now exists s.
      * right. right. split; [reflexivity|]. now exists us.
Qed.

(** ** Fields *)
Inductive field_item : field -> item -> Prop :=
| fi_num n : n <> 0%nat -> field_item (FInt LE n) (INum n)
| fi_code n codes : n <> 0%nat -> field_item (FEnumF LE n codes) (INum n)
| fi_color : field_item (FEnum LE 1 color_codes) IColor
| fi_fixed n m : n <> 0%nat -> field_item (FMagic LE n m) (IFixed n m)
| fi_text : field_item FStr IText.
Lemma row_items_ok k : Forall2 field_item (row_fields k) (row_items k).
Proof. destruct k; repeat constructor; discriminate. Qed.
Lemma color_known x : mem x color_codes = true <-> x <= 8.
Proof.
  rewrite mem_in. unfold color_codes. cbn [In]. split; [lia|]. intro H. assert (x = 0 \/ x = 1 \/ x = 2 \/ x = 3 \/ x = 4 \/ x = 5 \/ x = 6 \/ x = 7 \/ x = 8) as X by lia. intuition congruence.
Qed.
Section Row.
  Variables (b : build) (buf : list N).
  Hypotheses (HB : bytes_ok buf) (H64 : len buf < 2 ^ 64).
  Lemma fields_exact fs is : Forall2 field_item fs is -> forall pos ns ds fin,
    (exists vs, rd_fields (rd_dstr b) fs buf pos = Ok (vs, fin) /\ numbers vs = ns /\ texts vs = ds) <-> items_in b buf is pos ns ds fin.
  Proof.
    induction 1 as [|f i fs is HF _ IH]; intros pos ns ds fin; cbn [rd_fields].
    - cbn [items_in]. unfold ret. split; [intros (vs & E & <- & <-); assert (vs = [] /\ fin = pos) as [-> ->] by (split; congruence); easy|]. intros (-> & -> & ->). now exists [].
    - split.
      + intros (vs & H & <- & <-). apply bind_inv in H as (v & p & R & H). apply bind_inv in H as (ws & q & R2 & H). apply ret_inv in H as [<- <-]. rewrite numbers_cons, texts_cons.
        destruct HF as [n HN|n codes HN| |n m HN|]; cbn [rd_field rd_int] in R; cbn [items_in].
        * apply bind_inv in R as (x & p1 & R & H). apply ret_inv in H as [<- <-]. apply rd_le_exact in R as (R & ->); [|exact HN]. exists x, (numbers ws). split; [exact R|]. split; [reflexivity|]. apply IH. now exists ws.
        * apply bind_inv in R as (x & p1 & R & H). apply ret_inv in H as [<- <-]. apply rd_le_exact in R as (R & ->); [|exact HN]. exists x, (numbers ws). split; [exact R|]. split; [now destruct (mem x codes)|]. apply IH. exists ws. now destruct (mem x codes).
        * apply bind_inv in R as (x & p1 & R & H). apply bind_inv in H as (u & p2 & G & H). apply guard_inv in G as [G <-]. apply ret_inv in H as [<- <-]. apply rd_u8_inv in R as (R & ->). exists x, (numbers ws). split; [exact R|]. split; [now apply color_known|]. split; [reflexivity|]. apply IH. now exists ws.
        * apply bind_inv in R as (x & p1 & R & H). apply bind_inv in H as (u & p2 & G & H). apply guard_inv in G as [G <-]. apply ret_inv in H as [<- <-]. apply rd_le_exact in R as (R & ->); [|exact HN]. apply N.eqb_eq in G as ->. split; [exact R|]. apply IH. now exists ws.
        * apply bind_inv in R as (d & p1 & R & H). apply ret_inv in H as [<- <-]. exists d, (texts ws), p1. split; [now apply string_exact|]. split; [reflexivity|]. apply IH. now exists ws.
      + destruct HF as [n HN|n codes HN| |n m HN|]; cbn [rd_field rd_int items_in].
        * intros (x & ns' & R & -> & H). apply IH in H as (ws & R2 & <- & <-). exists (VInt x :: ws). split; [|now rewrite numbers_cons, texts_cons]. unfold bind. rewrite (rd_le_at_total n buf pos x HN R). unfold ret. now rewrite R2.
        * intros (x & ns' & R & -> & H). apply IH in H as (ws & R2 & <- & <-). exists ((if mem x codes then VNamed x else VOther x) :: ws). split; [|rewrite numbers_cons, texts_cons; now destruct (mem x codes)]. unfold bind. rewrite (rd_le_at_total n buf pos x HN R). unfold ret. now rewrite R2.
        * intros (x & ns' & R & L & -> & H). apply IH in H as (ws & R2 & <- & <-). exists (VNamed x :: ws). split; [|now rewrite numbers_cons, texts_cons]. unfold bind. change (rd_le 1) with rd_u8. rewrite (rd_u8_get buf pos x R), (proj2 (color_known x) L). cbn [guard]. unfold ret. now rewrite R2.
        * intros (R & H). apply IH in H as (ws & R2 & <- & <-). exists (VUnit :: ws). split; [|now rewrite numbers_cons, texts_cons]. unfold bind. rewrite (rd_le_at_total n buf pos m HN R), N.eqb_refl. cbn [guard]. unfold ret. now rewrite R2.
        * intros (d & ds' & q & S & -> & H). apply IH in H as (ws & R2 & <- & <-). exists (VStr d :: ws). split; [|now rewrite numbers_cons, texts_cons]. unfold bind. apply (string_exact b buf pos d q HB H64) in S. rewrite S. unfold ret. now rewrite R2.
  Qed.
  (** ** Offset arrays *)
  Lemma items_exact base : forall os ds, rd_items (rd_dstr b) base base os buf = Ok ds <-> Forall2 (fun o d => exists e, string_in b buf (base + o) d e) os ds.
  Proof.
    induction os as [|o os IH]; intro ds; cbn [rd_items].
    - split; [intro H; assert (ds = []) as -> by congruence; constructor|]. intro H. now inversion H.
    - split.
      + destruct (rd_dstr b buf (base + o)) as [[d e]|x|] eqn:R; [|destruct (rd_items (rd_dstr b) base (base + o) os buf); discriminate|discriminate].
        destruct (rd_items (rd_dstr b) base base os buf) as [l|x|] eqn:RI; [|discriminate|discriminate]. intro H. assert (ds = d :: l) as -> by congruence. constructor; [exists e; now apply string_exact|]. now apply IH.
      + intro H. inversion H as [|o' d os' l (e & S) HF]; subst. apply (string_exact b buf _ _ _ HB H64) in S. rewrite S. apply IH in HF. now rewrite HF.
  Qed.
  Lemma offs_exact sz n pos o q : rd_offs sz n buf pos = Ok (o, q) <->
    number buf pos (os_nat sz) = Some 3 /\ of_size o = sz /\ length (of_list o) = n /\ (forall i x, getN (of_list o) i = Some x -> number buf (pos + os_bytes sz * (i + 1)) (os_nat sz) = Some x) /\ q = pos + os_bytes sz * (1 + N.of_nat n).
  Proof.
    assert (os_nat sz <> 0%nat) as HN by now destruct sz. unfold rd_offs. split.
    - intro H. apply bind_inv in H as (u & p & M & H). apply magic_le_number in M as [M ->]; [|exact HN]. apply bind_inv in H as (l & p2 & R & H). apply ret_inv in H as [<- <-].
      apply (rd_count_numbers LE (os_nat sz) buf HN) in R as (L & -> & G). cbn [of_size of_list]. split; [exact M|]. split; [reflexivity|]. split; [exact L|]. fold (os_bytes sz) in *. split; [|lia].
      intros i x HX. apply G in HX. cbn [number_of] in HX. now replace (pos + os_bytes sz * (i + 1)) with (pos + os_bytes sz + os_bytes sz * i) by lia.
    - destruct o as [sz' l]. cbn [of_size of_list]. intros (M & -> & L & G & ->). unfold bind at 1, magic_le, bind at 1. rewrite (rd_le_at_total _ buf pos 3 HN M). cbn [N.eqb Pos.eqb guard]. unfold ret at 1. fold (os_bytes sz).
      assert (forall l p, (forall i x, getN l i = Some x -> number buf (p + os_bytes sz * i) (os_nat sz) = Some x) -> rd_count (length l) (rd_le (os_nat sz)) buf p = Ok (l, p + os_bytes sz * len l)) as HC.
      { induction l0 as [|x l0 IH]; intros p HG; cbn [rd_count length]; [change (len (@nil N)) with 0; unfold ret; now replace (p + os_bytes sz * 0) with p by lia|].
        unfold bind. pose proof (HG 0 x (getN_0 _ _)) as H0. rewrite N.mul_0_r, N.add_0_r in H0. rewrite (rd_le_at_total _ buf p x HN H0). fold (os_bytes sz).
        rewrite IH; [unfold ret; rewrite len_cons; now replace (p + os_bytes sz + os_bytes sz * len l0) with (p + os_bytes sz * (1 + len l0)) by lia|].
        intros i y HY. specialize (HG (i + 1) y). rewrite getN_cons in HG. replace (i + 1 =? 0) with false in HG by lia. replace (i + 1 - 1) with i in HG by lia. specialize (HG HY). now replace (p + os_bytes sz + os_bytes sz * i) with (p + os_bytes sz * (i + 1)) by lia. }
      unfold bind. rewrite <- L, (HC l (pos + os_bytes sz)); [unfold ret; replace (pos + os_bytes sz + os_bytes sz * len l) with (pos + os_bytes sz * (1 + N.of_nat (length l))) by (unfold len; lia); reflexivity|].
      intros i x HX. apply G in HX. now replace (pos + os_bytes sz + os_bytes sz * i) with (pos + os_bytes sz * (i + 1)) by lia.
  Qed.
  Lemma subtype_width s : os_nat (subtype_osize s) = if N.testbit s 2 then 2%nat else 1%nat.
  Proof. rewrite subtype_bit. change (s / 4) with (s / 2 ^ 2). rewrite <- N.testbit_spec'. now destruct (N.testbit s 2). Qed.
  Lemma Forall2_get {A B} (P : A -> B -> Prop) l1 l2 : Forall2 P l1 l2 <-> len l1 = len l2 /\ forall i x y, getN l1 i = Some x -> getN l2 i = Some y -> P x y.
  Proof.
    split.
    - induction 1 as [|x y l1 l2 HP _ [L IH]]; [split; [reflexivity|]; intros i x y HX; apply getN_Some_lt in HX; cbn in HX; lia|]. split; [rewrite !len_cons; lia|].
      intros i u v HU HV. rewrite getN_cons in HU. rewrite getN_cons in HV. destruct (i =? 0); [congruence|]. now apply (IH (i - 1)).
    - revert l2. induction l1 as [|x l1 IH]; intros [|y l2] [L H]; rewrite ?len_cons in L; [constructor|change (len (@nil A)) with 0 in L; lia|change (len (@nil B)) with 0 in L; lia|]. constructor; [now apply (H 0)|]. apply IH. split; [lia|].
      intros i u v HU HV. apply (H (i + 1)); rewrite getN_cons; replace (i + 1 =? 0) with false by lia; now replace (i + 1 - 1) with i by lia.
  Qed.
  Lemma choose (f : N -> option N) : forall l : list dstr, (forall i, i < len l -> exists x, f i = Some x) -> exists os, len os = len l /\ forall i x, getN os i = Some x -> f i = Some x.
  Proof.
    intro l. induction l as [|d l IH] using rev_ind; intro H; [exists []; split; [reflexivity|]; intros i x HX; apply getN_Some_lt in HX; cbn in HX; lia|]. rewrite len_app in H. change (len [d]) with 1 in H.
    destruct IH as (os & L & G); [intros i HI; apply H; lia|]. destruct (H (len l)) as [x X]; [lia|]. exists (os ++ [x]). split; [rewrite !len_app, L; reflexivity|]. intros i y HY. rewrite getN_app in HY. destruct (i <? len os) eqn:E; [now apply G|].
    rewrite getN_cons in HY. destruct (i - len os =? 0) eqn:E0; [|apply getN_Some_lt in HY; cbn in HY; lia]. replace i with (len l) by lia. congruence.
  Qed.
  Lemma oarr_exact base sz n pos c q : base <= pos ->
    (rd_oarr (rd_dstr b) base sz n buf pos = Ok (c, q) <-> q = pos - base /\ number buf pos (os_nat sz) = Some 3 /\ len (oa_items c) = N.of_nat n /\
      exists os, oa_offs c = Some (mk_offs sz os) /\ length os = n /\ (forall i x, getN os i = Some x -> number buf (pos + os_bytes sz * (i + 1)) (os_nat sz) = Some x) /\
        forall i x d, getN os i = Some x -> getN (oa_items c) i = Some d -> exists e, string_in b buf (pos - base + x) d e).
  Proof.
    intro HBs. unfold rd_oarr, calculate_base. replace (base <=? pos) with true by lia. split.
    - destruct (rd_offs sz n buf pos) as [[o p]|e|] eqn:R; [|discriminate|discriminate]. apply offs_exact in R as (M & S & L & G & _). intro H. cbn [res_bind] in H. destruct (rd_items (rd_dstr b) (pos - base) (pos - base) (of_list o) buf) as [ds|e|] eqn:RI; cbn [res_bind] in H; [|discriminate H|discriminate H].
      assert (c = mk_oarr (Some o) ds /\ q = pos - base) as [-> ->] by (split; congruence). cbn [oa_items oa_offs]. apply items_exact in RI. apply Forall2_get in RI as [LL RI]. split; [reflexivity|]. split; [exact M|]. unfold len in *. split; [lia|].
      exists (of_list o). destruct o as [sz' l]. cbn in *. subst sz'. easy.
    - intros (-> & M & LD & os & HO & L & G & HS). assert (rd_offs sz n buf pos = Ok (mk_offs sz os, pos + os_bytes sz * (1 + N.of_nat n))) as -> by now apply offs_exact. destruct c as [co ds]. cbn [oa_items oa_offs of_list] in *. subst co.
      assert (rd_items (rd_dstr b) (pos - base) (pos - base) os buf = Ok ds) as RI; [|cbn [of_list res_bind]; now rewrite RI]. apply items_exact, Forall2_get. split; [unfold len in *; lia|exact HS].
  Qed.
  (** ** Rows *)
  Lemma offsets_ok k : row_oarr k = option_map (fun x => (fst x, N.to_nat (snd x))) (offsets_at k).
  Proof. now destruct k. Qed.
  Lemma row_first k : (exists r, row_fields k = FInt LE 2 :: r) \/ offsets_at k = None.
  Proof. destruct k; (left; now eexists) || now right. Qed.
  Lemma no_texts k x : offsets_at k = Some x -> forall vs pos p, rd_fields (rd_dstr b) (row_fields k) buf pos = Ok (vs, p) -> texts vs = [] /\ p = pos + fst x.
  Proof.
    intros HX vs pos p H. assert (items_in b buf (row_items k) pos (numbers vs) (texts vs) p) as HI by (apply (fields_exact _ _ (row_items_ok k)); now exists vs).
    destruct k; try discriminate; injection HX as <-; cbn [row_items items_in repeat app] in HI; repeat match type of HI with ex _ => destruct HI as [? HI] | _ /\ _ => destruct HI as [? HI] end; subst; split; (assumption || cbn [fst]; lia).
  Qed.
  Lemma row_exact k pos ns ds fin : (exists r, rd_row (rd_dstr b) (PT k) buf pos = Ok (r, fin) /\ row_says r k ns ds) <-> row_in b k buf pos ns ds fin.
  Proof.
    unfold rd_row, row_in. rewrite offsets_ok. destruct (offsets_at k) as [[base n]|] eqn:EO; cbn [option_map fst snd].
    - split.
      + intros (r & H & HS). apply bind_inv in H as (vs & p & R & H). apply bind_inv in H as (c & p2 & RO & H). apply ret_inv in H as [<- <-]. cbn [row_says] in HS. destruct HS as (_ & <- & <-).
        destruct (no_texts k _ EO vs pos p R) as [HT ->]. cbn [fst] in *. rewrite HT, app_nil_l. destruct (row_first k) as [[r HF]|HF]; [|congruence]. pose proof R as R'. rewrite HF in R'. cbn [rd_fields rd_field rd_int] in R'.
        apply bind_inv in R' as (v & p1 & R1 & R'). apply bind_inv in R1 as (s & p3 & R1 & R3). apply ret_inv in R3 as [<- <-]. apply rd_le_exact in R1 as [R1 _]; [|discriminate]. apply bind_inv in R' as (ws & p4 & _ & R'). apply ret_inv in R' as [<- _].
        cbn [row_osize] in RO. apply oarr_exact in RO; [|lia]. destruct RO as (-> & M & L & os & _ & LO & G & HS). exists s, (if N.testbit s 2 then 2%nat else 1%nat). rewrite subtype_width in *. replace (os_bytes (subtype_osize s)) with (N.of_nat (if N.testbit s 2 then 2 else 1)%nat) in G by (unfold os_bytes; now rewrite subtype_width).
        split; [apply (fields_exact _ _ (row_items_ok k)); now exists (VInt s :: ws)|]. split; [exact R1|]. split; [reflexivity|]. split; [exact M|]. split; [lia|]. split; [lia|].
        intros i d HD. pose proof HD as HL. apply getN_Some_lt in HL. destruct (getN_lt_Some os i) as [x X]; [unfold len in *; lia|]. exists x. destruct (HS i x d X HD) as [e HE]. exists e. split; [now apply G|]. now replace (pos + x) with (pos + base - base + x) by lia.
      + intros (s & w & HI & R1 & -> & M & L & -> & HS). apply (fields_exact _ _ (row_items_ok k)) in HI as (vs & R & HN & HT). unfold bind. rewrite R.
        destruct (row_first k) as [[r HF]|HF]; [|congruence]. pose proof R as R'. rewrite HF in R'. cbn [rd_fields rd_field rd_int] in R'.
        apply bind_inv in R' as (v & p1 & R2 & R'). apply bind_inv in R2 as (s' & p3 & R2 & R3). apply ret_inv in R3 as [<- <-]. apply rd_le_exact in R2 as [R2 _]; [|discriminate]. apply bind_inv in R' as (ws & p4 & _ & R'). apply ret_inv in R' as [<- _]. assert (s' = s) as -> by congruence. clear R2.
        assert (exists os, len os = len ds /\ forall i x, getN os i = Some x -> number buf (pos + base + N.of_nat (if N.testbit s 2 then 2 else 1)%nat * (i + 1)) (if N.testbit s 2 then 2 else 1)%nat = Some x) as (os & LO & HO).
        { apply (choose (fun i => number buf (pos + base + N.of_nat (if N.testbit s 2 then 2 else 1)%nat * (i + 1)) (if N.testbit s 2 then 2 else 1)%nat)). intros i HI. destruct (getN_lt_Some ds i HI) as [d HD]. destruct (HS i d HD) as (o & e & HN2 & _). now exists o. }
        assert (rd_oarr (rd_dstr b) base (row_osize (VInt s :: ws)) (N.to_nat n) buf (pos + base) = Ok (mk_oarr (Some (mk_offs (subtype_osize s) os)) ds, pos)) as ->.
        { cbn [row_osize]. apply oarr_exact; [lia|]. cbn [oa_items oa_offs]. unfold os_bytes. rewrite subtype_width. split; [lia|]. split; [exact M|]. split; [lia|]. exists os. split; [reflexivity|]. split; [unfold len in *; lia|]. split; [exact HO|].
          intros i x d HX HD. destruct (HS i d HD) as (o & e & HN2 & HE). apply HO in HX. assert (x = o) as -> by congruence. exists e. now replace (pos + base - base + o) with (pos + o) by lia. }
        eexists. split; [reflexivity|]. cbn [row_says oa_items]. split; [reflexivity|]. split; [exact HN|]. now rewrite HT.
    - split.
      + intros (r & H & HS). apply bind_inv in H as (vs & p & R & H). apply ret_inv in H as [<- <-]. cbn [row_says] in HS. destruct HS as (_ & <- & <-). rewrite app_nil_r. apply (fields_exact _ _ (row_items_ok k)). now exists vs.
      + intro HI. apply (fields_exact _ _ (row_items_ok k)) in HI as (vs & R & HN & HT). unfold bind. rewrite R. eexists. split; [reflexivity|]. cbn [row_says]. now rewrite app_nil_r.
  Qed.
End Row.
