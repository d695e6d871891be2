(** * A grammar of the analysis files that are accepted

    Facts about the readers of src/anlz.rs (modelled in [Anlz.v]); no further code of /repo is modelled here. *)
From Coq Require Import NArith ZArith List Bool String Lia.
From Coq Require Import ZifyBool ZifyNat ZifyN.
From Verif Require Import Base BaseFacts Utf UtfFacts Schema SchemaFacts Xor Anlz AnlzFacts AnlzSections AnlzPanic AnlzLoop Layout LayoutAnlz Accept AcceptAll AcceptCue.
Import ListNotations.
Open Scope N_scope.

(** ** Spec *)
(** A section that takes the bytes from [pos] up to [fin], with the sizes [s] and [t] in its header. *)
Inductive section_in (b : build) (buf : list N) (pos s t fin : N) : Prop :=
| in_beat_grid n : has buf pos (letters "PQTZ") -> number_be buf (pos + 20) 4 = Some n -> fin = pos + 24 + 8 * n -> fin <= len buf -> section_in b buf pos s t fin
| in_cue_list n : has buf pos (letters "PCOB") -> number_be buf (pos + 12) 4 = Some 0 \/ number_be buf (pos + 12) 4 = Some 1 -> number_be buf (pos + 18) 2 = Some n -> fin = pos + 24 + 56 * n -> fin <= len buf ->
    (forall i, i < n -> getN buf (pos + 24 + 56 * i + 28) = Some 1 \/ getN buf (pos + 24 + 56 * i + 28) = Some 2) -> section_in b buf pos s t fin
| in_extended n : has buf pos (letters "PCO2") -> number_be buf (pos + 12) 4 = Some 0 \/ number_be buf (pos + 12) 4 = Some 1 -> number_be buf (pos + 16) 2 = Some n -> number_be buf (pos + 18) 2 = Some 0 ->
    extended_entries (N.to_nat n) buf (pos + 20) fin -> section_in b buf pos s t fin
| in_path m : has buf pos (letters "PPTH") -> span b s t = Some (2 * m + 2) -> number_be buf (pos + 12) 4 = Some (2 * m + 2) -> number_be buf (pos + 16 + 2 * m) 2 = Some 0 ->
    (forall i, i < m -> exists u, number_be buf (pos + 16 + 2 * i) 2 = Some u /\ u <> 0) -> fin = pos + 18 + 2 * m -> section_in b buf pos s t fin
| in_vbr cs : has buf pos (letters "PVBR") -> span b s t = Some cs -> fin = pos + 16 + cs -> fin <= len buf -> section_in b buf pos s t fin
| in_wave w n : has buf pos (letters (wave_letters w)) -> span b s t = Some (wave_width w * n) ->
    match w with WPreview | WTiny => number_be buf (pos + 12) 4 = Some n | _ => number_be buf (pos + 12) 4 = Some (wave_width w) /\ number_be buf (pos + 16) 4 = Some n end ->
    match w with WDetail | W3Detail => number_be buf (pos + 20) 4 = Some 0x00960000 | _ => True end -> fin = pos + wave_data w + wave_width w * n -> fin <= len buf -> section_in b buf pos s t fin
| in_song n buf' m x : has buf pos (letters "PSSI") -> number_be buf (pos + 12) 4 = Some 24 -> number_be buf (pos + 16) 2 = Some n -> span b s t = Some (24 * n) ->
    masked n (pos + 18) buf buf' /\ room b n 65285 \/ buf' = buf /\ room b n 65310 -> number_be buf' (pos + 18) 2 = Some m -> 1 <= m <= 3 -> getN buf' (pos + 30) = Some x -> x <= 8 ->
    fin = pos + 32 + 24 * n -> fin <= len buf -> section_in b buf pos s t fin
| in_unknown r cs : (forall x k, In (x, k) kind_letters -> ~ has buf pos (letters x)) -> span b 12 s = Some r -> span b s t = Some cs -> fin = pos + 12 + r + cs -> fin <= len buf -> section_in b buf pos s t fin.
(** Sections that follow each other, the last of which is the first one that ends at [final] or behind it. *)
Inductive sections_in (b : build) (buf : list N) (final : N) : N -> N -> Prop :=
| in_end pos : final <= pos -> sections_in b buf final pos pos
| in_more pos m fin s t : pos < final -> number_be buf (pos + 4) 4 = Some s -> number_be buf (pos + 8) 4 = Some t -> section_in b buf pos s t m -> sections_in b buf final m fin -> sections_in b buf final pos fin.
(** A file. *)
Definition file_in (b : build) (buf : list N) (pos fin : N) : Prop := exists s t r cs,
  has buf pos (letters "PMAI") /\ number_be buf (pos + 4) 4 = Some s /\ number_be buf (pos + 8) 4 = Some t /\ span b 12 s = Some r /\ span b s t = Some cs /\ pos + 12 + r <= len buf /\
  sections_in b buf (pos + 12 + r + cs) (pos + 12 + r) fin.

(** ** Proofs *)
Lemma section_open b buf pos S p : bytes_ok buf -> len buf < 2 ^ 32 -> rd_section b buf pos = Ok (S, p) ->
  exists h, rd_header buf pos = Ok (h, pos + 12) /\ se_header S = h /\ rd_content b h buf (pos + 12) = Ok (se_content S, p) /\ number_be buf (pos + 4) 4 = Some (h_size h) /\ number_be buf (pos + 8) 4 = Some (h_total h) /\
  kind_at buf pos (h_kind h) /\ content_at buf pos h (se_content S) p /\ p <= len buf.
Proof.
  intros HB HM H. pose proof H as H0. apply section_read in H0 as [[_ HC] HL]; [|exact HB|exact HM]. unfold rd_section in H. apply bind_inv in H as (h & p1 & R1 & H). apply bind_inv in H as (c & p2 & R2 & H). apply ret_inv in H as [<- <-].
  pose proof (header_read _ _ _ _ HB R1) as ((K & S1 & S2) & -> & _). exists h. cbn [se_header se_content] in *. now repeat split.
Qed.
Lemma section_of b buf pos S p x k : bytes_ok buf -> len buf < 2 ^ 32 -> In (x, k) kind_letters -> has buf pos (letters x) -> rd_section b buf pos = Ok (S, p) ->
  exists h, h_kind h = k /\ rd_content b h buf (pos + 12) = Ok (se_content S, p) /\ number_be buf (pos + 4) 4 = Some (h_size h) /\ number_be buf (pos + 8) 4 = Some (h_total h) /\ content_at buf pos h (se_content S) p /\ pos + 12 <= len buf /\ p <= len buf.
Proof.
  intros HB HM HI HK H. apply section_open in H as (h & R & _ & C & S1 & S2 & _ & HC & HL); [|exact HB|exact HM]. exists h. split; [now apply (kind_is buf pos x k h (pos + 12))|]. pose proof (header_read _ _ _ _ HB R) as (_ & _ & L). now repeat split.
Qed.
Lemma vbr_end b buf pos S p s t cs : bytes_ok buf -> len buf < 2 ^ 32 -> has buf pos (letters "PVBR") -> rd_section b buf pos = Ok (S, p) -> number_be buf (pos + 4) 4 = Some s -> number_be buf (pos + 8) 4 = Some t -> span b s t = Some cs -> p = pos + 16 + cs.
Proof.
  intros HB HM HK H HS HT HC. apply (section_of b buf pos S p "PVBR" KVBR HB HM) in H as (h & K & C & S1 & S2 & _ & L & _); [|cbn; auto 20|exact HK]. assert (h_size h = s) as <- by congruence. assert (h_total h = t) as <- by congruence.
  unfold rd_content in C. rewrite K in C. unfold rd_vbr in C. apply bind_inv in C as (u & p1 & R1 & C). apply rd_be_at in R1 as (_ & -> & L1); [|discriminate]. apply bind_inv in C as (n & p2 & R2 & C). apply lift_eq in R2 as [R2 <-]. apply span_ok in R2. apply bind_inv in C as (d & p3 & R3 & C). apply ret_inv in C as [_ <-].
  apply rd_bytes_at in R3 as (_ & _ & -> & _); [|exact L1]. change (N.of_nat 4) with 4. assert (n = cs) as -> by congruence. lia.
Qed.
Lemma unknown_end b buf pos S p s t r cs : bytes_ok buf -> len buf < 2 ^ 32 -> (forall x k, In (x, k) kind_letters -> ~ has buf pos (letters x)) -> rd_section b buf pos = Ok (S, p) -> number_be buf (pos + 4) 4 = Some s -> number_be buf (pos + 8) 4 = Some t ->
  span b 12 s = Some r -> span b s t = Some cs -> p = pos + 12 + r + cs.
Proof.
  intros HB HM HK H HS HT HR HC. apply section_open in H as (h & R & _ & C & S1 & S2 & K & _); [|exact HB|exact HM]. pose proof (header_read _ _ _ _ HB R) as (_ & _ & L). assert (h_size h = s) as <- by congruence. assert (h_total h = t) as <- by congruence.
  assert (exists c, h_kind h = KUnknown c) as [c E]. { destruct (h_kind h) eqn:E; cbn [kind_at] in K; try (destruct K as (x & X1 & X2); now destruct (HK _ _ X1)). now eexists. }
  unfold rd_content in C. rewrite E in C. unfold rd_unknown in C. apply bind_inv in C as (n & p1 & R1 & C). apply lift_eq in R1 as [R1 <-]. apply span_ok in R1. apply bind_inv in C as (hd & p2 & R2 & C). apply rd_bytes_at in R2 as (_ & _ & -> & L2); [|exact L]. apply bind_inv in C as (m & p3 & R3 & C). apply lift_eq in R3 as [R3 <-]. apply span_ok in R3.
  apply bind_inv in C as (d & p4 & R4 & C). apply ret_inv in C as [_ <-]. apply rd_bytes_at in R4 as (_ & _ & -> & _); [|exact L2]. assert (n = r) as -> by congruence. assert (m = cs) as -> by congruence. lia.
Qed.
Lemma wave_kind w : exists k, In (wave_letters w, k) kind_letters /\ forall buf pos h c p, h_kind h = k -> content_at buf pos h c p -> exists f, c = CWave f /\ wave_at buf pos w f p.
Proof. destruct w; (eexists; split; [cbn; auto 20|]); intros buf pos h c p K H; destruct c; cbn [content_at] in H; rewrite ?K in H; try (destruct H as [H _]; discriminate); try (destruct H as [[? H] _]; discriminate); now eexists. Qed.
Lemma section_exact b buf pos s t fin : bytes_ok buf -> len buf < 2 ^ 31 -> number_be buf (pos + 4) 4 = Some s -> number_be buf (pos + 8) 4 = Some t -> ((exists S, rd_section b buf pos = Ok (S, fin)) <-> section_in b buf pos s t fin).
Proof.
  intros HB H31 HS HT. assert (len buf < 2 ^ 32) as HM by (eapply N.lt_trans; [exact H31|reflexivity]). split.
  - intros [S H]. assert (acc (rd_section b) buf pos) as HA by (now exists S, fin). pose proof (section_open b buf pos S fin HB HM H) as (h & _ & _ & C & S1 & S2 & K & HC & HL).
    assert (h_size h = s) as ES by congruence. assert (h_total h = t) as ET by congruence.
    assert ((exists x, In (x, h_kind h) kind_letters /\ has buf pos (letters x)) \/ (exists c, h_kind h = KUnknown c) /\ forall x k, In (x, k) kind_letters -> ~ has buf pos (letters x)) as [(x & HI & HX)|[[c EK] HX]].
    { destruct (h_kind h) eqn:EK; cbn [kind_at] in K; try (left; exact K). right. split; [now eexists|apply K]. }
    2:{ apply (unknown_accepts b buf pos s t HB HX HS HT) in HA as (r & cs & A1 & A2 & A3). apply (in_unknown _ _ _ _ _ _ r cs); try assumption. now apply (unknown_end b buf pos S fin s t r cs). }
    assert (forall w, x = wave_letters w -> section_in b buf pos s t fin) as HW.
    { intros w ->. destruct (wave_kind w) as (k & KI & KW). pose proof (section_of b buf pos S fin _ k HB HM KI HX H) as (h' & K' & _ & _ & _ & HC' & _). apply (KW buf pos h' _ fin K') in HC' as (f & _ & (_ & F1 & F2 & _ & _ & F3)).
      apply (wave_accepts b buf pos s t w HB HM HX HS HT) in HA as (n & A1 & A2 & A3 & A4). assert (len (wf_data f) = n) as EN by (destruct w; cbv iota in F1, A3; first [congruence|destruct A3 as [_ E2]; congruence]). rewrite EN in F3. now apply (in_wave _ _ _ _ _ _ w n). }
    unfold kind_letters in HI. cbn [In] in HI. repeat (destruct HI as [HI|HI]; [injection HI as <- EK; symmetry in EK|]); [..|destruct HI].
    all: try (now apply (HW WPreview)); try (now apply (HW WTiny)); try (now apply (HW WDetail)); try (now apply (HW WColorPreview)); try (now apply (HW WColorDetail)); try (now apply (HW W3Preview)); try (now apply (HW W3Detail)).
    all: try (unfold rd_content in C; rewrite EK in C; discriminate C).
    all: destruct (se_content S) eqn:EC; cbn [content_at] in HC; rewrite ?EK in HC; try contradiction; try (destruct HC as [HC _]; discriminate); try (destruct HC as [[? HC] _]; discriminate).
    + destruct HC as (_ & _ & _ & C1 & _ & C2). apply (in_beat_grid _ _ _ _ _ _ (len beats)); assumption.
    + destruct HC as (_ & _ & _ & C1 & _ & _ & C2). apply (cue_list_accepts b buf pos (len cues) HB HX C1) in HA as (A1 & A2 & A3). apply (in_cue_list _ _ _ _ _ _ (len cues)); assumption.
    + destruct HC as (_ & _ & C1 & _). destruct (proj1 (extended_list_accepts b buf pos fin (len cues) HB H31 HX C1)) as (A1 & A2 & A3); [now exists S|]. apply (in_extended _ _ _ _ _ _ (len cues)); assumption.
    + destruct HC as (_ & C1 & _ & _ & C2). apply (path_accepts b buf pos s t HB HM HX HS HT) in HA as (m & A1 & A2 & A3 & A4). assert (2 * m + 2 = 2 * len path + 2) as E by congruence. apply (in_path _ _ _ _ _ _ m); try assumption. lia.
    + apply (vbr_accepts b buf pos s t HB HX HS HT) in HA as (_ & cs & A1 & A2). apply (in_vbr _ _ _ _ _ _ cs); try assumption. now apply (vbr_end b buf pos S fin s t cs).
    + destruct HC as (_ & _ & C1 & _ & C2). apply (song_section_accepts b buf pos s t _ HB HX HS HT C1) in HA as (A1 & A2 & A3 & buf' & A4 & (m & A5 & A6) & x & A7 & A8). now apply (in_song _ _ _ _ _ _ (len (sd_phrases (so_data s0))) buf' m x).
  - intro H. assert (forall x k, In (x, k) kind_letters -> has buf pos (letters x) -> acc (rd_section b) buf pos -> (forall S p h, rd_section b buf pos = Ok (S, p) -> h_kind h = k -> content_at buf pos h (se_content S) p -> p = fin) -> exists S, rd_section b buf pos = Ok (S, fin)) as HE.
    { intros x k HI HX (S & p & HR) HF. pose proof (section_of b buf pos S p x k HB HM HI HX HR) as (h & K & _ & _ & _ & HC & _). exists S. now rewrite <- (HF S p h HR K HC). }
    destruct H as [n HX C1 C2 C3|n HX C0 C1 C2 C3 C4|n HX C0 C1 C2 C3|m HX C1 C2 C3 C4 C5|cs HX C1 C2 C3|w n HX C1 C2 C3 C4 C5|n buf' m x HX C1 C2 C3 C4 C5 C6 C7 C8 C9 C10|r cs HX C1 C2 C3 C4].
    + apply (HE "PQTZ" KBeatGrid)%string; [cbn; auto 20|exact HX|apply (beat_grid_accepts b buf pos n HB HX C1); lia|]. intros S p h _ K HC. destruct (se_content S); cbn [content_at] in HC; rewrite ?K in HC; try contradiction; try (destruct HC as [HC _]; discriminate); try (destruct HC as [[? HC] _]; discriminate).
      destruct HC as (_ & _ & _ & D1 & _ & D2). assert (len beats = n) as <- by congruence. congruence.
    + apply (HE "PCOB" KCueList)%string; [cbn; auto 20|exact HX|apply (cue_list_accepts b buf pos n HB HX C1); split; [lia|now split]|]. intros S p h _ K HC. destruct (se_content S); cbn [content_at] in HC; rewrite ?K in HC; try contradiction; try (destruct HC as [HC _]; discriminate); try (destruct HC as [[? HC] _]; discriminate).
      destruct HC as (_ & _ & _ & D1 & _ & _ & D2). assert (len cues = n) as <- by congruence. congruence.
    + apply (extended_list_accepts b buf pos fin n HB H31 HX C1). now split.
    + apply (HE "PPTH" KPath)%string; [cbn; auto 20|exact HX|apply (path_accepts b buf pos s t HB HM HX HS HT); now exists m|]. intros S p h _ K HC. destruct (se_content S); cbn [content_at] in HC; rewrite ?K in HC; try contradiction; try (destruct HC as [HC _]; discriminate); try (destruct HC as [[? HC] _]; discriminate).
      destruct HC as (_ & D1 & _ & _ & D2). assert (2 * m + 2 = 2 * len path + 2) as E by congruence. lia.
    + apply (HE "PVBR" KVBR)%string; [cbn; auto 20|exact HX|apply (vbr_accepts b buf pos s t HB HX HS HT); split; [lia|]; exists cs; split; [exact C1|lia]|]. intros S p h HR _ _. rewrite C2. now apply (vbr_end b buf pos S p s t cs).
    + destruct (wave_kind w) as (k & KI & KW). apply (HE (wave_letters w) k KI HX); [apply (wave_accepts b buf pos s t w HB HM HX HS HT); exists n; split; [exact C1|]; split; [lia|]; now split|]. intros S p h _ K HC. apply (KW buf pos h _ p K) in HC as (f & _ & (_ & F1 & F2 & _ & _ & F3)).
      assert (len (wf_data f) = n) as EN by (destruct w; cbv iota in F1, C2; first [congruence|destruct C2 as [_ E2]; congruence]). rewrite EN in F3. congruence.
    + apply (HE "PSSI" KSongStructure)%string; [cbn; auto 20|exact HX|apply (song_section_accepts b buf pos s t n HB HX HS HT C2); split; [exact C1|]; split; [exact C3|]; split; [lia|]; exists buf'; split; [exact C4|]; split; [now exists m|now exists x]|].
      intros S p h _ K HC. destruct (se_content S); cbn [content_at] in HC; rewrite ?K in HC; try contradiction; try (destruct HC as [HC _]; discriminate); try (destruct HC as [[? HC] _]; discriminate).
      destruct HC as (_ & _ & D1 & _ & D2). assert (len (sd_phrases (so_data s0)) = n) as E by congruence. rewrite E in D2. congruence.
    + assert (acc (rd_section b) buf pos) as (S & p & HR) by (apply (unknown_accepts b buf pos s t HB HX HS HT); exists r, cs; split; [exact C1|]; split; [exact C2|lia]). exists S. rewrite HR. do 2 f_equal. rewrite C3. now apply (unknown_end b buf pos S p s t r cs).
Qed.
Lemma sections_exact b buf final pos fin : bytes_ok buf -> len buf < 2 ^ 31 -> ((exists l, sections_at b final buf pos l fin) <-> sections_in b buf final pos fin).
Proof.
  intros HB H31. assert (len buf < 2 ^ 32) as HM by (eapply N.lt_trans; [exact H31|reflexivity]). split.
  - intros [l H]. induction H as [pos HL|pos S pos' l q HL HR HS IH]; [now constructor|]. pose proof (section_open b buf pos S pos' HB HM HR) as (h & _ & _ & _ & S1 & S2 & _).
    apply (in_more b buf final pos pos' q (h_size h) (h_total h)); try assumption. apply section_exact; try assumption. now exists S.
  - induction 1 as [pos HL|pos m q s t HL S1 S2 HI HS IH]; [exists []; now constructor|]. apply (section_exact b buf pos s t m HB H31 S1 S2) in HI as [S HR]. destruct IH as [l IH]. exists (S :: l). now apply (sa_more _ _ _ _ _ m).
Qed.
Lemma sections_fuel b final buf pos l p : sections_at b final buf pos l p -> len l = 0 \/ pos + 12 * len l <= p /\ p <= len buf.
Proof.
  induction 1 as [pos HL|pos S pos' l q HL HR HS IH]; [now left|]. right. apply section_adv in HR as [R1 R2]. rewrite len_cons. destruct IH as [E|IH]; [|lia]. destruct l; [|rewrite len_cons in E; lia]. inversion HS; subst. rewrite (@len_nil section). lia.
Qed.
Lemma file_exact b buf pos fin : bytes_ok buf -> len buf < 2 ^ 31 -> ((exists a, rd_anlz b buf pos = Ok (a, fin)) <-> file_in b buf pos fin).
Proof.
  intros HB H31. assert (forall s t r cs, number_be buf (pos + 4) 4 = Some s -> number_be buf (pos + 8) 4 = Some t -> span b s t = Some cs -> pos + 12 + r <= len buf -> wadd b 64 (pos + 12 + r) cs = Ok (pos + 12 + r + cs)) as HW.
  { intros s t r cs S T C L. assert (cs < 2 ^ 32) as L32.
    { assert (t < 2 ^ 32) as T32. { pose proof (number_be_len buf 4 _ _ ltac:(discriminate) T) as LT. pose proof (rd_be_at_total 4 buf (pos + 8) t ltac:(discriminate) LT T) as R. now apply rd_be4_inv in R as (R & _). }
      unfold span in C. destruct (s <=? t); [assert (t - s = cs) as <- by congruence; lia|]. destruct b; [discriminate|]. assert ((t + 2 ^ 32 - s) mod 2 ^ 32 = cs) as <- by congruence. now apply N.mod_lt. }
    unfold wadd. replace (pos + 12 + r + cs <? 2 ^ 64) with true; [reflexivity|]. symmetry. apply N.ltb_lt. lia. }
  split.
  - intros [a H]. unfold rd_anlz in H. apply bind_inv in H as (h & p1 & R1 & H). apply bind_inv in H as (u & p2 & R2 & H). apply guard_inv in R2 as [G <-]. apply bind_inv in H as (r & p3 & R3 & H). apply lift_eq in R3 as [R3 <-]. apply span_ok in R3.
    apply bind_inv in H as (hd & p4 & R4 & H). apply bind_inv in H as (cs & p5 & R5 & H). apply lift_eq in R5 as [R5 <-]. apply span_ok in R5. apply bind_inv in H as (l & p6 & R6 & H). apply ret_inv in H as [_ <-].
    apply header_read in R1 as ((K & S1 & S2) & -> & L); [|exact HB]. apply rd_bytes_at in R4 as (_ & _ & -> & L4); [|exact L]. exists (h_size h), (h_total h), r, cs.
    split. { destruct (h_kind h); try discriminate G. cbn [kind_at] in K. destruct K as (x & X1 & X2). unfold kind_letters in X1. cbn [In] in X1. repeat (destruct X1 as [X1|X1]; [try discriminate X1; injection X1 as <-; exact X2|]). destruct X1. }
    split; [exact S1|]. split; [exact S2|]. split; [exact R3|]. split; [exact R5|]. split; [exact L4|]. apply sections_exact; [exact HB|exact H31|]. unfold parse_sections in R6. rewrite (HW _ _ _ _ S1 S2 R5 L4) in R6.
    destruct (sections_loop _ _ _ _ _) as [res|] eqn:SL; [|discriminate]. subst res. exists l. now apply loop_sections in SL.
  - intros (s & t & r & cs & HX & S1 & S2 & R & C & L & HS). apply sections_exact in HS as [l HS]; [|exact HB|exact H31]. destruct (proj2 (header_accepts buf pos)) as [h H1]; [lia|]. pose proof (kind_is buf pos "PMAI" KFile h _ HB ltac:(cbn; auto 20) HX H1) as K.
    pose proof (header_read _ _ _ _ HB H1) as ((_ & T1 & T2) & _). assert (h_size h = s) as <- by congruence. assert (h_total h = t) as <- by congruence. apply span_ok in R as R'. apply span_ok in C as C'.
    destruct (rd_bytes_ok r buf (pos + 12) L) as [hd HD]. unfold rd_anlz, bind. rewrite H1. unfold guard. rewrite K. cbn [is_file]. unfold ret at 1. unfold lift, remaining_size. rewrite R'. rewrite HD. unfold content_size. rewrite C'.
    unfold parse_sections. rewrite (HW _ _ _ _ S1 S2 C L). pose proof (sections_fuel _ _ _ _ _ _ HS) as HF. rewrite (sections_loop_at _ _ _ _ _ _ HS) by (unfold len in HF; lia). unfold ret. now eexists.
Qed.
