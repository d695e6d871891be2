(** * Readers that look at nothing behind what they read *)
From Coq Require Import NArith ZArith List Bool Lia.
From Coq Require Import ZifyBool ZifyNat ZifyN.
From Verif Require Import Base BaseFacts Schema Xor Anlz AnlzSpec AnlzFacts AnlzCodec AnlzSong AnlzLoop.
Import ListNotations.
Open Scope N_scope.

(** The first [q] bytes are the same. *)
Definition agree (q : N) (buf buf' : list N) : Prop := q <= len buf' /\ forall i, i < q -> getN buf' i = getN buf i.
Lemma agree_le q q' buf buf' : q' <= q -> agree q buf buf' -> agree q' buf buf'.
Proof. intros L [H1 H2]. split; [lia|]. intros i I. apply H2. lia. Qed.
Definition local {A} (p : parser A) : Prop := forall buf pos a q, pos <= len buf -> p buf pos = Ok (a, q) ->
  (pos <= q /\ q <= len buf) /\ forall buf', agree q buf buf' -> p buf' pos = Ok (a, q).

Lemma local_ret {A} (a : A) : local (ret a).
Proof. intros buf pos x q L [= <- <-]. split; [lia|easy]. Qed.
Lemma local_fail {A} e : local (fail e : parser A).
Proof. intros buf pos x q L H. discriminate. Qed.
Lemma local_lift {A} (r : res A) : local (lift r).
Proof. intros buf pos x q L H. unfold lift in *. destruct r as [a| |]; try discriminate. injection H as <- <-. split; [lia|easy]. Qed.
Lemma local_bind {A B} (p : parser A) (f : A -> parser B) : local p -> (forall a, local (f a)) -> local (bind p f).
Proof.
  intros HP HF buf pos x q L H. unfold bind in *. destruct (p buf pos) as [[a p1]| |] eqn:E; try discriminate.
  destruct (HP _ _ _ _ L E) as [L1 H1]. destruct (HF a _ _ _ _ (proj2 L1) H) as [L2 H2]. split; [lia|]. intros buf' G. rewrite (H1 buf') by (apply (agree_le q); [lia|easy]). now apply H2.
Qed.
Lemma local_guard b e : local (guard b e).
Proof. unfold guard. destruct b; [apply local_ret|apply local_fail]. Qed.
Lemma local_bytes n : local (rd_bytes n).
Proof.
  intros buf pos x q L H. unfold rd_bytes in *. destruct (n =? 0) eqn:N0; [injection H as <- <-; split; [lia|easy]|].
  destruct (pos + n <=? len buf) eqn:E; [|discriminate]. injection H as <- <-. split; [lia|]. intros buf' [G1 G2]. replace (pos + n <=? len buf') with true by lia. do 2 f_equal.
  apply list_ext. intro i. rewrite !getN_takeN. destruct (i <? n) eqn:I; [|reflexivity]. rewrite !getN_dropN. apply G2. lia.
Qed.
Lemma local_le n : local (rd_le n).
Proof. apply local_bind; [apply local_bytes|intro; apply local_ret]. Qed.
Lemma local_be n : local (rd_be n).
Proof. apply local_bind; [apply local_bytes|intro; apply local_ret]. Qed.
Lemma local_count {A} (p : parser A) n : local p -> local (rd_count n p).
Proof. intro HP. induction n as [|n IH]; cbn [rd_count]; [apply local_ret|]. apply local_bind; [exact HP|]. intro a. apply local_bind; [exact IH|]. intro. apply local_ret. Qed.
Ltac loc := repeat lazymatch goal with
  | |- local (ret _) => apply local_ret | |- local (fail _) => apply local_fail | |- local (lift _) => apply local_lift | |- local (guard _ _) => apply local_guard
  | |- local (rd_bytes _) => apply local_bytes | |- local (rd_le _) => apply local_le | |- local (rd_be _) => apply local_be | |- local (rd_count _ _) => apply local_count
  | |- local (bind _ _) => apply local_bind; [|let x := fresh "x" in intro x; cbv beta] end.

Lemma local_field f : local (rd_field (fail EIo) f).
Proof. destruct f as [e n|e n m|e n c|e n c|n|]; cbn [rd_field]; try (destruct e); cbn [rd_int]; loc. Qed.
Lemma local_plain fs : local (rd_plain fs).
Proof. unfold rd_plain. induction fs as [|f fs IH]; cbn [rd_fields]; loc; [apply local_field|exact IH]. Qed.
Lemma local_header : local rd_header.
Proof. unfold rd_header, rd_ckind. loc. Qed.
Lemma local_comment : local rd_comment.
Proof. unfold rd_comment. loc. destruct (x =? 0); loc. match goal with |- local (match ?x with _ => _ end) => destruct x end; loc. Qed.
Lemma local_cue : local rd_cue.
Proof. unfold rd_cue. loc; first [apply local_header|apply local_plain]. Qed.
Lemma local_ecue b : local (rd_ecue b).
Proof. unfold rd_ecue. loc; first [apply local_header|apply local_plain|apply local_comment]. Qed.
Lemma local_wave b h w : local (rd_wave b h w).
Proof.
  unfold rd_wave, rd_wave_count, rd_wave_unknown. loc; first [apply local_plain|destruct (wave_entry w); now loc|destruct (wave_unknown w); now loc].
Qed.
Lemma local_song_data n : local (rd_song_data n).
Proof. unfold rd_song_data. loc; apply local_plain. Qed.
(** Units up to a zero; any bound on their number that is large enough gives the same. *)
Lemma local_until n : n <> 0%nat -> forall f buf pos s q, pos <= len buf -> rd_until0 f (rd_be n) buf pos = Ok (s, q) ->
  (pos + len s < q /\ q <= len buf) /\ forall buf' f', agree q buf buf' -> (List.length s < f')%nat -> rd_until0 f' (rd_be n) buf' pos = Ok (s, q).
Proof.
  intros NZ. induction f as [|f IH]; intros buf pos s q L H; [discriminate|]. cbn [rd_until0] in H. unfold bind in H. destruct (rd_be n buf pos) as [[u p1]| |] eqn:E; try discriminate.
  destruct (local_be n _ _ _ _ L E) as [L1 H1]. assert (pos < p1) as LP.
  { unfold rd_be, bind in E. destruct (rd_bytes (N.of_nat n) buf pos) as [[bs p2]| |] eqn:R; try discriminate. injection E as _ <-. apply rd_bytes_inv in R. lia. }
  destruct (u =? 0) eqn:U.
  - injection H as <- <-. split; [unfold len in *; cbn [List.length] in *; lia|]. intros buf' [|f'] G LF; [cbn in LF; lia|]. cbn [rd_until0]. unfold bind. rewrite (H1 buf' G), U. reflexivity.
  - destruct (rd_until0 f (rd_be n) buf p1) as [[r p2]| |] eqn:R; try discriminate. injection H as <- <-. destruct (IH _ _ _ _ (proj2 L1) R) as [L2 H2]. rewrite len_cons. split; [lia|].
    intros buf' [|f'] G LF; [cbn in LF; lia|]. cbn [rd_until0]. unfold bind. rewrite (H1 buf'), U by (apply (agree_le p2); [lia|easy]). rewrite (H2 buf' f' G) by (cbn [List.length] in LF; lia). reflexivity.
Qed.
Lemma local_nullwide : local rd_nullwide.
Proof.
  intros buf pos s q L H. unfold rd_nullwide in *. destruct (local_until 2 ltac:(easy) _ _ _ _ _ L H) as [L1 H1]. split; [lia|]. intros buf' G. apply H1; [exact G|]. destruct G as [G _]. unfold len in *. lia.
Qed.
(** Through the XOR stream. *)
Lemma agree_view key st q buf buf' : agree q buf buf' -> agree q (xor_view key st buf) (xor_view key st buf').
Proof.
  intros [H1 H2]. split; [now rewrite len_view|]. intros i I. assert (forall l j z, getN (xor_cycle key z l) j = match getN l j with Some x => Some (N.lxor x (key_at key (z + Z.of_N j))) | None => None end) as X.
  { clear. induction l as [|x l IH]; intros j z; [unfold getN; cbn [xor_cycle]; now destruct (N.to_nat j)|]. cbn [xor_cycle]. destruct (N.eq_dec j 0) as [->|J].
    - unfold getN. cbn. f_equal. f_equal. f_equal. lia.
    - assert (forall (y : N) r, getN (y :: r) j = getN r (j - 1)) as Y by (intros y r; unfold getN; replace (N.to_nat j) with (S (N.to_nat (j - 1))) by lia; reflexivity). rewrite !Y, IH. destruct (getN l (j - 1)); [|reflexivity]. f_equal. f_equal. f_equal. lia. }
  unfold xor_view. rewrite !X, H2 by easy. reflexivity.
Qed.
Lemma local_encrypted b e n : local (rd_encrypted b e n).
Proof.
  unfold rd_encrypted. destruct e; [|apply local_song_data]. loc. intros buf pos y q L H. destruct (local_song_data n (xor_view x pos buf) pos y q) as [L1 H1]; [now rewrite len_view|exact H|].
  rewrite len_view in L1. split; [exact L1|]. intros buf' G. apply H1. now apply agree_view.
Qed.
(** It reads the two bytes that were looked at before. *)
Lemma song_data_advance n buf pos x q : rd_song_data n buf pos = Ok (x, q) -> pos <= len buf -> pos + 2 <= q.
Proof.
  intros H L. unfold rd_song_data in H. apply bind_inv in H as (vs & p & H1 & H). unfold rd_plain, song_fields in H1. cbn [rd_fields] in H1. apply bind_inv in H1 as (v & p1 & H1 & H2).
  cbn [rd_field mood] in H1. apply bind_inv in H1 as (c & p2 & H1 & H3). assert (p2 = pos + 2 /\ p2 <= len buf) as [-> L2].
  { change (rd_int BE 2) with (rd_be 2) in H1. unfold rd_be in H1. apply bind_inv in H1 as (bs & p3 & H1 & H4). apply ret_inv in H4 as [_ <-]. pose proof (local_bytes _ _ _ _ _ L H1) as [L3 _]. apply rd_bytes_inv in H1. lia. }
  apply bind_inv in H3 as ([] & p3 & H3 & H4). apply guard_inv in H3 as (_ & <-). apply ret_inv in H4 as [_ <-].
  match type of H2 with ?r buf _ = _ => assert (local r) as LR by (loc; apply local_field) end. destruct (LR _ _ _ _ L2 H2) as [L3 _].
  match type of H with ?r buf _ = _ => assert (local r) as LR' by (loc; apply local_plain) end. destruct (LR' _ _ _ _ (proj2 L3) H) as [L4 _]. lia.
Qed.
Lemma encrypted_advance b e n buf pos x q : rd_encrypted b e n buf pos = Ok (x, q) -> pos <= len buf -> pos + 2 <= q.
Proof.
  unfold rd_encrypted. destruct e; intros H L; [|now apply song_data_advance in H]. apply bind_inv in H as (key & p & H1 & H). assert (p = pos) as -> by (unfold lift in H1; destruct (get_key b n 19); try discriminate; now injection H1).
  apply song_data_advance in H; [exact H|]. now rewrite len_view.
Qed.
Lemma local_song b h : local (rd_song b h).
Proof.
  unfold rd_song. do 6 (apply local_bind; [solve [loc]|intro; cbv beta]). intros buf pos y q L H.
  apply bind_inv in H as (p0 & p1 & H0 & H). injection H0 as <- <-. apply bind_inv in H as (raw & p1 & H1 & H). apply bind_inv in H as ([] & p2 & H2 & H). injection H2 as <-.
  pose proof (local_bytes _ _ _ _ _ L H1) as [L1 G1]. apply bind_inv in H as (e & p3 & H3 & H). assert (p3 = pos) as -> by (unfold lift in H3; destruct (check_if_encrypted b raw _); try discriminate; now injection H3).
  apply bind_inv in H as (d & p4 & H4 & H). pose proof (encrypted_advance _ _ _ _ _ _ _ H4 L) as LA. destruct (local_encrypted b e _ _ _ _ _ L H4) as [L4 G4]. apply ret_inv in H as [<- <-]. split; [lia|].
  intros buf' G. assert (p1 = pos + 2) as E1 by (apply rd_bytes_inv in H1; lia). unfold bind, tell, seek_to. rewrite (G1 buf') by (apply (agree_le p4); [lia|easy]).
  unfold lift in *. destruct (check_if_encrypted b raw _) as [e'| |]; try discriminate. injection H3 as ->. rewrite (G4 buf' G). reflexivity.
Qed.
Lemma local_content b h : local (rd_content b h).
Proof.
  unfold rd_content. destruct (h_kind h); unfold rd_beat_grid, rd_cue_list, rd_ecue_list, rd_path, rd_vbr, rd_unknown; loc;
    first [apply local_plain|apply local_field|apply local_cue|apply local_ecue|apply local_wave|apply local_song|apply local_nullwide].
Qed.
Lemma local_section b : local (rd_section b).
Proof. unfold rd_section. loc; first [apply local_header|apply local_content]. Qed.
Lemma local_loop b final : forall f buf pos l q, pos <= len buf -> sections_loop f b final buf pos = Some (Ok (l, q)) ->
  (pos + len l <= q /\ q <= len buf) /\ forall buf' f', agree q buf buf' -> (List.length l < f')%nat -> sections_loop f' b final buf' pos = Some (Ok (l, q)).
Proof.
  induction f as [|f IH]; intros buf pos l q L H; [discriminate|]. cbn [sections_loop] in H. destruct (pos <? final) eqn:F.
  - destruct (rd_section b buf pos) as [[s p1]| |] eqn:E; try discriminate. destruct (sections_loop f b final buf p1) as [[[r p2]| |]|] eqn:R; try discriminate. injection H as <- <-.
    destruct (local_section b _ _ _ _ L E) as [L1 H1]. pose proof (section_adv _ _ _ _ _ E) as LA. destruct (IH _ _ _ _ (proj2 L1) R) as [L2 H2]. rewrite len_cons. split; [lia|].
    intros buf' [|f'] G LF; [cbn in LF; lia|]. cbn [sections_loop List.length] in *. rewrite F, (H1 buf') by (apply (agree_le p2); [lia|easy]). rewrite (H2 buf' f' G) by lia. reflexivity.
  - injection H as <- <-. split; [unfold len; cbn [List.length]; unfold len in L; lia|]. intros buf' [|f'] G LF; [cbn in LF; lia|]. cbn [sections_loop]. now rewrite F.
Qed.
Lemma local_sections b n : local (parse_sections b n).
Proof.
  intros buf pos l q L H. unfold parse_sections in *. destruct (wadd b 64 pos n) as [final| |]; try discriminate.
  destruct (sections_loop (S (List.length buf)) b final buf pos) as [r|] eqn:R; [|discriminate]. subst r. destruct (local_loop _ _ _ _ _ _ _ L R) as [L1 H1]. split; [lia|].
  intros buf' G. rewrite (H1 buf' _ G); [reflexivity|]. destruct G as [G _]. unfold len in *. lia.
Qed.
Lemma local_anlz b : local (rd_anlz b).
Proof. unfold rd_anlz. loc; first [apply local_header|apply local_sections]. Qed.

(** ** If the input ends before the end position, there is an error *)
Definition short {A} (p : parser A) : Prop := forall buf pos a q n, pos <= len buf -> p buf pos = Ok (a, q) -> pos <= n -> n < q -> exists e, p (takeN n buf) pos = Err e.
Lemma agree_take n q buf : q <= n -> q <= len buf -> agree q buf (takeN n buf).
Proof. intros L L2. split; [rewrite len_takeN; lia|]. intros i I. rewrite getN_takeN. now replace (i <? n) with true by lia. Qed.
Lemma short_ret {A} (a : A) : short (ret a).
Proof. intros buf pos x q n L [= <- <-]. lia. Qed.
Lemma short_fail {A} e : short (fail e : parser A).
Proof. intros buf pos x q n L H. discriminate. Qed.
Lemma short_lift {A} (r : res A) : short (lift r).
Proof. intros buf pos x q n L H. unfold lift in *. destruct r as [a| |]; try discriminate. injection H as <- <-. lia. Qed.
Lemma short_guard b e : short (guard b e).
Proof. unfold guard. destruct b; [apply short_ret|apply short_fail]. Qed.
Lemma short_bytes m : short (rd_bytes m).
Proof.
  intros buf pos x q n L H L1 L2. unfold rd_bytes in *. destruct (m =? 0); [injection H as <- <-; lia|]. destruct (pos + m <=? len buf); [|discriminate]. injection H as <- <-.
  replace (pos + m <=? len (takeN n buf)) with false by (rewrite len_takeN; lia). eauto.
Qed.
Lemma short_bind {A B} (p : parser A) (f : A -> parser B) : local p -> short p -> (forall a, short (f a)) -> short (bind p f).
Proof.
  intros LP SP SF buf pos x q n L H L1 L2. unfold bind in *. destruct (p buf pos) as [[a p1]| |] eqn:E; try discriminate. destruct (LP _ _ _ _ L E) as [L3 G].
  destruct (n <? p1) eqn:N1; [destruct (SP _ _ _ _ n L E L1 ltac:(lia)) as (e & ->); eauto|]. rewrite (G (takeN n buf)) by (apply agree_take; lia). apply (SF _ _ _ _ _ n (proj2 L3) H); lia.
Qed.
Lemma short_le m : short (rd_le m).
Proof. apply short_bind; [apply local_bytes|apply short_bytes|intro; apply short_ret]. Qed.
Lemma short_be m : short (rd_be m).
Proof. apply short_bind; [apply local_bytes|apply short_bytes|intro; apply short_ret]. Qed.
Lemma short_count {A} (p : parser A) m : local p -> short p -> short (rd_count m p).
Proof. intros LP SP. induction m as [|m IH]; cbn [rd_count]; [apply short_ret|]. apply short_bind; [exact LP|exact SP|]. intro a. apply short_bind; [now apply local_count|exact IH|]. intro. apply short_ret. Qed.
Ltac sho := repeat lazymatch goal with
  | |- short (ret _) => apply short_ret | |- short (fail _) => apply short_fail | |- short (lift _) => apply short_lift | |- short (guard _ _) => apply short_guard
  | |- short (rd_bytes _) => apply short_bytes | |- short (rd_le _) => apply short_le | |- short (rd_be _) => apply short_be | |- short (rd_count _ _) => apply short_count
  | |- short (bind _ _) => apply short_bind; [| |let x := fresh "x" in intro x; cbv beta] end; loc.

Lemma short_field f : short (rd_field (fail EIo) f).
Proof. destruct f as [e n|e n m|e n c|e n c|n|]; cbn [rd_field]; try (destruct e); cbn [rd_int]; sho. Qed.
Lemma short_plain fs : short (rd_plain fs).
Proof. unfold rd_plain. induction fs as [|f fs IH]; cbn [rd_fields]; sho; first [apply local_field|apply short_field|apply local_plain|exact IH]. Qed.
Lemma short_header : short rd_header.
Proof. unfold rd_header, rd_ckind. sho. Qed.
Lemma short_comment : short rd_comment.
Proof. unfold rd_comment. sho. destruct (x =? 0); sho. match goal with |- short (match ?x with _ => _ end) => destruct x end; sho. Qed.
Lemma short_cue : short rd_cue.
Proof. unfold rd_cue. sho; first [apply local_header|apply local_plain|apply short_header|apply short_plain]. Qed.
Lemma short_ecue b : short (rd_ecue b).
Proof. unfold rd_ecue. sho; first [apply local_header|apply local_plain|apply local_comment|apply short_header|apply short_plain|apply short_comment]. Qed.
Lemma short_wave b h w : short (rd_wave b h w).
Proof.
  unfold rd_wave, rd_wave_count, rd_wave_unknown. sho; first [apply local_plain|apply short_plain|destruct (wave_entry w); now loc|destruct (wave_unknown w); now loc|destruct (wave_entry w); now sho|destruct (wave_unknown w); now sho].
Qed.
Lemma short_song_data n : short (rd_song_data n).
Proof. unfold rd_song_data. sho; first [apply local_plain|apply short_plain]. Qed.
Lemma short_until m : forall f buf pos s q n, pos <= len buf -> rd_until0 f (rd_be m) buf pos = Ok (s, q) -> pos <= n -> n < q -> forall f', exists e, rd_until0 f' (rd_be m) (takeN n buf) pos = Err e.
Proof.
  induction f as [|f IH]; intros buf pos s q n L H L1 L2 f'; [discriminate|]. destruct f' as [|f']; [cbn; unfold fail; eauto|]. cbn [rd_until0] in *. unfold bind in *.
  destruct (rd_be m buf pos) as [[u p1]| |] eqn:E; try discriminate. destruct (local_be m _ _ _ _ L E) as [L3 G].
  destruct (n <? p1) eqn:N1; [destruct (short_be m _ _ _ _ n L E L1 ltac:(lia)) as (e & ->); eauto|]. rewrite (G (takeN n buf)) by (apply agree_take; lia).
  destruct (u =? 0); [injection H as <- <-; lia|]. destruct (rd_until0 f (rd_be m) buf p1) as [[r p2]| |] eqn:R; try discriminate. injection H as <- <-.
  destruct (IH _ _ _ _ n (proj2 L3) R ltac:(lia) L2 f') as (e & ->). eauto.
Qed.
Lemma short_nullwide : short rd_nullwide.
Proof. intros buf pos s q n L H L1 L2. unfold rd_nullwide in *. exact (short_until _ _ _ _ _ _ _ L H L1 L2 _). Qed.
Lemma take_view key st n buf : xor_view key st (takeN n buf) = takeN n (xor_view key st buf).
Proof.
  unfold xor_view. generalize (- Z.of_N st)%Z. unfold takeN. induction (N.to_nat n) as [|m IH] in buf |- *; intro z; [reflexivity|]. destruct buf as [|x buf]; [reflexivity|]. cbn [firstn xor_cycle]. f_equal. apply IH.
Qed.
Lemma short_encrypted b e m : short (rd_encrypted b e m).
Proof.
  unfold rd_encrypted. destruct e; [|apply short_song_data]. sho. intros buf pos y q n L H L1 L2. rewrite take_view. apply (short_song_data m _ _ y q); [now rewrite len_view|exact H|exact L1|exact L2].
Qed.
Lemma short_song b h : short (rd_song b h).
Proof.
  unfold rd_song. do 6 (apply short_bind; [solve [loc]|solve [sho]|intro; cbv beta]). intros buf pos y q n L H LN1 LN2.
  apply bind_inv in H as (p0 & p1 & H0 & H). injection H0 as <- <-. apply bind_inv in H as (raw & p1 & H1 & H). apply bind_inv in H as ([] & p2 & H2 & H). injection H2 as <-.
  pose proof (local_bytes _ _ _ _ _ L H1) as [L1 G1]. apply bind_inv in H as (e & p3 & H3 & H). assert (p3 = pos) as -> by (unfold lift in H3; destruct (check_if_encrypted b raw _); try discriminate; now injection H3 as _ <-).
  apply bind_inv in H as (d & p4 & H4 & H). apply ret_inv in H as [<- <-]. unfold bind, tell, seek_to.
  destruct (n <? p1) eqn:N1; [destruct (short_bytes _ _ _ _ _ n L H1 LN1 ltac:(lia)) as (e1 & ->); eauto|]. rewrite (G1 (takeN n buf)) by (apply agree_take; lia).
  unfold lift in *. destruct (check_if_encrypted b raw _) as [e'| |]; try discriminate. injection H3 as ->. destruct (short_encrypted b e _ _ _ _ _ n L H4 LN1 LN2) as (e1 & ->). eauto.
Qed.
Lemma short_content b h : short (rd_content b h).
Proof.
  unfold rd_content. destruct (h_kind h); unfold rd_beat_grid, rd_cue_list, rd_ecue_list, rd_path, rd_vbr, rd_unknown; sho;
    first [apply local_plain|apply local_field|apply local_cue|apply local_ecue|apply local_wave|apply local_song|apply local_nullwide
          |apply short_plain|apply short_field|apply short_cue|apply short_ecue|apply short_wave|apply short_song|apply short_nullwide].
Qed.
Lemma short_section b : short (rd_section b).
Proof. unfold rd_section. sho; first [apply local_header|apply local_content|apply short_header|apply short_content]. Qed.
Lemma short_loop b final : forall f buf pos l q n, pos <= len buf -> sections_loop f b final buf pos = Some (Ok (l, q)) -> pos <= n -> n < q ->
  forall f', (List.length (takeN n buf) < f' + N.to_nat pos)%nat -> exists e, sections_loop f' b final (takeN n buf) pos = Some (Err e).
Proof.
  induction f as [|f IH]; intros buf pos l q n L H L1 L2 f' LF; [discriminate|]. cbn [sections_loop] in H. destruct (pos <? final) eqn:F; [|injection H as <- <-; lia].
  destruct (rd_section b buf pos) as [[s p1]| |] eqn:E; try discriminate. destruct (sections_loop f b final buf p1) as [[[r p2]| |]|] eqn:R; try discriminate. injection H as <- <-.
  destruct (local_section b _ _ _ _ L E) as [L3 G]. pose proof (section_adv _ _ _ _ _ E) as LA. assert (len (takeN n buf) = N.min n (len buf)) as LT by apply len_takeN. unfold len at 1 in LT.
  destruct (local_loop _ _ _ _ _ _ _ (proj2 L3) R) as [L4 _].
  destruct f' as [|f']; [lia|]. cbn [sections_loop]. rewrite F.
  destruct (n <? p1) eqn:N1; [destruct (short_section b _ _ _ _ n L E L1 ltac:(lia)) as (e & ->); eauto|]. rewrite (G (takeN n buf)) by (apply agree_take; lia).
  destruct (IH _ _ _ _ n (proj2 L3) R ltac:(lia) L2 f') as (e & ->); [lia|]. eauto.
Qed.
Lemma short_sections b m : short (parse_sections b m).
Proof.
  intros buf pos l q n L H L1 L2. unfold parse_sections in *. destruct (wadd b 64 pos m) as [final| |]; try discriminate.
  destruct (sections_loop (S (List.length buf)) b final buf pos) as [r|] eqn:R; [|discriminate]. subst r.
  destruct (short_loop b final _ _ _ _ _ n L R L1 L2 (S (List.length (takeN n buf)))) as (e & ->); [lia|]. eauto.
Qed.
Lemma short_anlz b : short (rd_anlz b).
Proof. unfold rd_anlz. sho; first [apply local_header|apply local_sections|apply short_header|apply short_sections]. Qed.
