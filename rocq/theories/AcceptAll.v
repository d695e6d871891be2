(** * Which sections of analysis files are accepted

    Facts about the readers of src/anlz.rs (modelled in [Anlz.v]); no further code of /repo is modelled here. *)
From Coq Require Import NArith ZArith List Bool String Lia.
From Coq Require Import ZifyBool ZifyNat ZifyN.
From Verif Require Import Base BaseFacts Utf Schema SchemaFacts Xor XorFacts Anlz AnlzFacts AnlzSections AnlzSong AnlzPanic Layout LayoutAnlz Accept.
Import ListNotations.
Open Scope N_scope.

(** ** Spec *)
(** The bytes behind the header: a difference that may not be negative in debug builds and is taken modulo [2 ^ 32] in release builds. *)
Definition span (b : build) (s t : N) : option N := if s <=? t then Some (t - s) else match b with Debug => None | Release => Some ((t + 2 ^ 32 - s) mod 2 ^ 32) end.
Definition wave_letters (w : wave) : string :=
  match w with WPreview => "PWAV" | WTiny => "PWV2" | WDetail => "PWV3" | WColorPreview => "PWV4" | WColorDetail => "PWV5" | W3Preview => "PWV6" | W3Detail => "PWV7" end.

(** ** Combinators *)
Definition acc {A} (p : parser A) (buf : list N) (pos : N) : Prop := exists x q, p buf pos = Ok (x, q).
Lemma number_be_len buf : forall n pos x, n <> 0%nat -> number_be buf pos n = Some x -> pos + N.of_nat n <= len buf.
Proof.
  intros n pos x HN H. destruct n as [|n]; [easy|]. cbn [number_be] in H. destruct (getN buf (pos + N.of_nat n)) as [a|] eqn:E; [|discriminate]. apply getN_Some_lt in E. lia.
Qed.
Lemma acc_be {A} n (f : N -> parser A) buf pos : n <> 0%nat -> (acc (let* x <- rd_be n; f x) buf pos <-> exists x, number_be buf pos n = Some x /\ acc (f x) buf (pos + N.of_nat n)).
Proof.
  intro HN. split.
  - intros (y & q & H). apply bind_inv in H as (x & p1 & R & H). apply rd_be_at in R as (R & -> & _); [|exact HN]. exists x. split; [exact R|]. now exists y, q.
  - intros (x & R & y & q & H). unfold acc, bind. rewrite (rd_be_at_total n buf pos x HN (number_be_len buf n pos x HN R) R). now exists y, q.
Qed.
Lemma acc_guard {A} c e (f : parser A) buf pos : acc (let* _ <- guard c e; f) buf pos <-> c = true /\ acc f buf pos.
Proof. unfold acc, bind, guard. destruct c; cbn; [easy|]. split; [intros (x & q & H); discriminate|easy]. Qed.
Lemma acc_lift {A B} (r : res B) (f : B -> parser A) buf pos : acc (let* x <- lift r; f x) buf pos <-> exists x, r = Ok x /\ acc (f x) buf pos.
Proof.
  unfold acc, bind, lift. destruct r as [x|e|].
  - split; [intro H; now exists x|]. intros (y & E & H). assert (y = x) as -> by congruence. exact H.
  - split; [intros (x & q & H); discriminate|intros (x & E & _); discriminate].
  - split; [intros (x & q & H); discriminate|intros (x & E & _); discriminate].
Qed.
Lemma acc_last {A B} (p : parser A) (g : A -> B) buf pos : acc (let* x <- p; ret (g x)) buf pos <-> acc p buf pos.
Proof. unfold acc, bind, ret. destruct (p buf pos) as [[x q]| |]; split; intros (y & q' & H); try discriminate; eauto. Qed.
Lemma acc_bytes {A} n (f : list N -> parser A) buf pos : pos <= len buf -> (acc (let* bs <- rd_bytes n; f bs) buf pos <-> pos + n <= len buf /\ exists bs, rd_bytes n buf pos = Ok (bs, pos + n) /\ acc (f bs) buf (pos + n)).
Proof.
  intro HP. split.
  - intros (y & q & H). apply bind_inv in H as (x & p1 & R & H). pose proof R as R'. apply rd_bytes_at in R as (_ & _ & -> & L); [|exact HP]. split; [exact L|]. exists x. split; [exact R'|]. now exists y, q.
  - intros (_ & x & R & y & q & H). unfold acc, bind. rewrite R. now exists y, q.
Qed.
Lemma rd_bytes_ok n buf pos : pos + n <= len buf -> exists bs, rd_bytes n buf pos = Ok (bs, pos + n).
Proof. intro H. unfold rd_bytes. destruct (n =? 0) eqn:E; [replace (pos + n) with pos by lia; now eexists|]. replace (pos + n <=? len buf) with true by lia. now eexists. Qed.
Lemma acc_rest n buf pos : pos <= len buf -> (acc (rd_bytes n) buf pos <-> pos + n <= len buf).
Proof. intro HP. split; [intros (x & q & H); now apply rd_bytes_at in H as (_ & _ & -> & L)|]. intro H. destruct (rd_bytes_ok n buf pos H) as [x X]. now exists x, (pos + n). Qed.
Lemma span_ok b s t cs : wsub b 32 t s = Ok cs <-> span b s t = Some cs.
Proof. unfold wsub, span, ovf. destruct (s <=? t); [split; congruence|]. destruct b; split; try easy; congruence. Qed.
(** ** Sections *)
Lemma section_acc b buf pos s t : bytes_ok buf -> number_be buf (pos + 4) 4 = Some s -> number_be buf (pos + 8) 4 = Some t ->
  exists h, rd_header buf pos = Ok (h, pos + 12) /\ h_size h = s /\ h_total h = t /\ pos + 12 <= len buf /\ (acc (rd_section b) buf pos <-> acc (rd_content b h) buf (pos + 12)).
Proof.
  intros HB HS HT. pose proof (number_be_len buf 4 (pos + 8) t ltac:(discriminate) HT) as HL. change (N.of_nat 4) with 4 in HL. destruct (proj2 (header_accepts buf pos)) as [h H1]; [lia|]. exists h. split; [exact H1|]. apply header_read in H1 as HX; [|exact HB]. destruct HX as ((_ & X1 & X2) & _).
  split; [congruence|]. split; [congruence|]. split; [lia|]. unfold rd_section, acc, bind. rewrite H1. unfold ret. destruct (rd_content b h buf (pos + 12)) as [[x q]| |]; split; intros (y & q' & H); try discriminate; eauto.
Qed.
Lemma vbr_accepts b buf pos s t : bytes_ok buf -> has buf pos (letters "PVBR") -> number_be buf (pos + 4) 4 = Some s -> number_be buf (pos + 8) 4 = Some t ->
  (acc (rd_section b) buf pos <-> pos + 16 <= len buf /\ exists cs, span b s t = Some cs /\ pos + 16 + cs <= len buf).
Proof.
  intros HB HK HS HT. destruct (section_acc b buf pos s t HB HS HT) as (h & H1 & <- & <- & HL & ->). pose proof (kind_is buf pos "PVBR" KVBR h _ HB ltac:(cbn; auto 20) HK H1) as K. unfold rd_content. rewrite K. unfold rd_vbr.
  rewrite acc_be by discriminate. change (N.of_nat 4) with 4. replace (pos + 12 + 4) with (pos + 16) by lia. unfold content_size. split.
  - intros (u & U & H). apply number_be_len in U; [|discriminate]. change (N.of_nat 4) with 4 in U. split; [lia|]. apply acc_lift in H as (cs & C & H). exists cs. split; [now apply span_ok|]. apply acc_last in H. now apply acc_rest in H; [|lia].
  - intros (L & cs & C & H). destruct (number_total buf (pos + 12) 4 ltac:(lia)) as [u U]. exists u. split; [exact U|]. apply acc_lift. exists cs. split; [now apply span_ok|]. apply acc_last. apply acc_rest; [lia|exact H].
Qed.
Lemma unknown_accepts b buf pos s t : bytes_ok buf -> (forall x k, In (x, k) kind_letters -> ~ has buf pos (letters x)) -> number_be buf (pos + 4) 4 = Some s -> number_be buf (pos + 8) 4 = Some t ->
  (acc (rd_section b) buf pos <-> exists r cs, span b 12 s = Some r /\ span b s t = Some cs /\ pos + 12 + r + cs <= len buf).
Proof.
  intros HB HK HS HT. destruct (section_acc b buf pos s t HB HS HT) as (h & H1 & <- & <- & HL & ->). apply header_read in H1 as ((K & _) & _); [|exact HB].
  assert (exists c, h_kind h = KUnknown c) as [c E]. { destruct (h_kind h) eqn:E; cbn [kind_at] in K; try (destruct K as (x & X1 & X2); now destruct (HK _ _ X1)). now eexists. }
  unfold rd_content. rewrite E. unfold rd_unknown, remaining_size, content_size. rewrite acc_lift. split.
  - intros (r & R & H). apply span_ok in R. apply acc_bytes in H as (L & hd & _ & H); [|exact HL]. apply acc_lift in H as (cs & C & H). apply span_ok in C. apply acc_last in H. apply acc_rest in H; [|exact L]. now exists r, cs.
  - intros (r & cs & R & C & L). exists r. split; [now apply span_ok|]. apply acc_bytes; [exact HL|]. split; [lia|]. destruct (rd_bytes_ok r buf (pos + 12) ltac:(lia)) as [hd HD]. exists hd. split; [exact HD|]. apply acc_lift. exists cs. split; [now apply span_ok|]. apply acc_last. apply acc_rest; [lia|exact L].
Qed.
Lemma columns_accept w buf n pos : pos <= len buf -> (acc (rd_count (N.to_nat n) (rd_plain (wave_fields w))) buf pos <-> pos + wave_width w * n <= len buf).
Proof.
  intro HP. assert (forall q, q <= len buf -> ((exists x p, rd_plain (wave_fields w) buf q = Ok (x, p)) <-> q + wave_width w <= len buf /\ True)) as HD.
  { intros q HQ. rewrite (plain_accepts buf (wave_fields w) q) by (easy || now destruct w). replace (fields_size (wave_fields w)) with (wave_width w) by now destruct w. split; [easy|]. intros [H _]. split; [exact H|]. destruct w; cbn; easy. }
  assert (forall q x p, rd_plain (wave_fields w) buf q = Ok (x, p) -> p = q + wave_width w) as HW.
  { intros q x p H. assert (q <= len buf) as HQ.
    { unfold rd_plain in H. destruct w; cbn [rd_fields wave_fields] in H; apply bind_inv in H as (v & p1 & R & _); cbn [rd_field] in R; apply bind_inv in R as (y & p2 & R & _); unfold rd_int, rd_le, rd_be in R; apply bind_inv in R as (bs & p3 & R & _); unfold rd_bytes in R; cbn [N.of_nat Pos.of_succ_nat N.eqb Pos.succ] in R;
        match type of R with (if ?c then _ else _) = _ => destruct c eqn:EC; [lia|discriminate] end. }
    now apply column_read in H as (_ & -> & _). }
  pose proof (count_accepts _ (fun _ => True) buf (wave_width w) ltac:(destruct w; reflexivity) HW HD (N.to_nat n) pos HP) as X. unfold acc. rewrite X, N2Nat.id. easy.
Qed.
(** The number of columns is at offset 12, or at 16 behind the width of a column. *)
Lemma wave_accepts b buf pos s t w : bytes_ok buf -> len buf < 2 ^ 32 -> has buf pos (letters (wave_letters w)) -> number_be buf (pos + 4) 4 = Some s -> number_be buf (pos + 8) 4 = Some t ->
  (acc (rd_section b) buf pos <-> exists n, span b s t = Some (wave_width w * n) /\ pos + wave_data w + wave_width w * n <= len buf /\
    match w with WPreview | WTiny => number_be buf (pos + 12) 4 = Some n | _ => number_be buf (pos + 12) 4 = Some (wave_width w) /\ number_be buf (pos + 16) 4 = Some n end /\
    match w with WDetail | W3Detail => number_be buf (pos + 20) 4 = Some 0x00960000 | _ => True end).
Proof.
  intros HB H32 HK HS HT. destruct (section_acc b buf pos s t HB HS HT) as (h & H1 & <- & <- & HL & ->).
  assert (exists k, In (wave_letters w, k) kind_letters /\ rd_content b (Build_header k (h_size h) (h_total h)) = (let* f <- rd_wave b (Build_header k (h_size h) (h_total h)) w; ret (CWave f))) as (k & KI & KE) by (destruct w; eexists; (split; [cbn; auto 20|reflexivity])).
  pose proof (kind_is buf pos (wave_letters w) k h _ HB KI HK H1) as K. assert (h = Build_header k (h_size h) (h_total h)) as EH by (destruct h; cbn in *; now subst). rewrite <- EH in KE. rewrite KE, acc_last.
  assert (forall n q, q <= len buf -> (acc (let* u <- rd_wave_unknown w; let* d <- rd_count (N.to_nat n) (rd_plain (wave_fields w)); ret {| wf_type := w; wf_unknown := u; wf_data := d |}) buf q <->
    match w with W3Preview => True | WDetail | W3Detail => number_be buf q 4 = Some 0x00960000 | _ => True end /\ q + match w with W3Preview => 0 | _ => 4 end + wave_width w * n <= len buf)) as HU.
  { intros n q HQ. assert (forall u q', q' <= len buf -> (acc (let* d <- rd_count (N.to_nat n) (rd_plain (wave_fields w)); ret {| wf_type := w; wf_unknown := u; wf_data := d |}) buf q' <-> q' + wave_width w * n <= len buf)) as HC by (intros u q' HQ'; rewrite acc_last; now apply columns_accept).
    assert (forall v : N, (acc (let* u <- (let* u <- rd_be 4; let* _ <- guard (u =? v) EAssertFail; ret (Some u)); let* d <- rd_count (N.to_nat n) (rd_plain (wave_fields w)); ret {| wf_type := w; wf_unknown := u; wf_data := d |}) buf q <-> number_be buf q 4 = Some v /\ q + 4 + wave_width w * n <= len buf)) as HF.
    { intro v. split.
      - intros (y & p & H). apply bind_inv in H as (u & p1 & R & H). apply bind_inv in R as (x & p2 & R & G). apply rd_be_at in R as (R & -> & L); [|discriminate]. apply bind_inv in G as (z & p3 & G & E). apply guard_inv in G as [G <-]. apply ret_inv in E as [_ <-]. apply N.eqb_eq in G as ->.
        split; [exact R|]. apply (HC u); [exact L|]. now exists y, p.
      - intros [R L]. destruct (proj2 (HC (Some v) (q + 4) ltac:(lia)) L) as (y & p & H). exists y, p. unfold bind in *. rewrite (rd_be_at_total 4 buf q v ltac:(discriminate) ltac:(lia) R). unfold guard. rewrite N.eqb_refl. unfold ret in *. exact H. }
    assert ((acc (let* u <- (let* u <- rd_be 4; ret (Some u)); let* d <- rd_count (N.to_nat n) (rd_plain (wave_fields w)); ret {| wf_type := w; wf_unknown := u; wf_data := d |}) buf q <-> q + 4 + wave_width w * n <= len buf)) as HA.
    { split.
      - intros (y & p & H). apply bind_inv in H as (u & p1 & R & H). apply bind_inv in R as (x & p2 & R & G). apply rd_be_at in R as (R & -> & L); [|discriminate]. apply ret_inv in G as [_ <-]. apply (HC u); [exact L|]. now exists y, p.
      - intro L. destruct (number_total buf q 4 ltac:(lia)) as [v R]. destruct (proj2 (HC (Some v) (q + 4) ltac:(lia)) L) as (y & p & H). exists y, p. unfold bind in *. rewrite (rd_be_at_total 4 buf q v ltac:(discriminate) ltac:(lia) R). unfold ret in *. exact H. }
    unfold rd_wave_unknown, wave_unknown. destruct w; try (rewrite HA; tauto); try (rewrite HF; tauto). rewrite N.add_0_r. specialize (HC None q HQ). unfold bind at 1. unfold ret at 1. unfold acc in *. rewrite HC. tauto. }
  unfold rd_wave. assert (forall (p : parser N) (g : N -> parser waveform), acc (let* n <- p; g n) buf (pos + 12) <-> exists n q, p buf (pos + 12) = Ok (n, q) /\ acc (g n) buf q) as HBND.
  { intros p g. split; [intros (y & q & H); apply bind_inv in H as (n & q1 & R & H); exists n, q1; split; [exact R|]; now exists y, q|]. intros (n & q & R & y & q' & H). exists y, q'. unfold bind. now rewrite R. }
  rewrite HBND. unfold rd_wave_count, content_size.
  assert (forall n, wave_width w * n <= len buf -> wmul b 32 (wave_width w) n = Ok (wave_width w * n)) as HM by (intros n Hn; unfold wmul; now replace (wave_width w * n <? 2 ^ 32) with true by lia).
  assert (forall n m, wmul b 32 (wave_width w) n = Ok m -> wave_width w * n <= len buf -> m = wave_width w * n) as HM2 by (intros n m H1' H2'; rewrite HM in H1' by easy; congruence).
  destruct (wave_entry w) as [e|] eqn:EW.
  - assert (e = wave_width w) as -> by (destruct w; cbn in *; congruence). split.
    + intros (n & q & R & H). apply bind_inv in R as (eb & p1 & R1 & R). apply rd_be_at in R1 as (R1 & -> & L1); [|discriminate]. apply bind_inv in R as (z & p2 & G & R). apply guard_inv in G as [G <-]. apply N.eqb_eq in G as ->.
      apply bind_inv in R as (n' & p3 & R2 & R). apply rd_be_at in R2 as (R2 & -> & L2); [|discriminate]. apply bind_inv in R as (m & p4 & M & R). apply lift_eq in M as [M <-]. apply bind_inv in R as (cs & p5 & C & R). apply lift_eq in C as [C <-].
      apply bind_inv in R as (z2 & p6 & G & R). apply guard_inv in G as [G <-]. apply N.eqb_eq in G as ->. apply ret_inv in R as [<- <-]. change (N.of_nat 4) with 4 in *. replace (pos + 12 + 4) with (pos + 16) in * by lia. replace (pos + 16 + 4) with (pos + 20) in * by lia.
      apply HU in H as [U L]; [|exact L2]. assert (wave_width w * n' <= len buf) as LE by lia. rewrite (HM2 _ _ M LE) in C. exists n'. split; [now apply span_ok|]. split; [destruct w; cbn [wave_data] in *; lia|]. split; [destruct w; easy|]. destruct w; easy.
    + intros (n & C & L & R & U). assert (number_be buf (pos + 12) 4 = Some (wave_width w) /\ number_be buf (pos + 16) 4 = Some n) as [R1 R2] by (destruct w; easy). exists n, (pos + 20). assert (pos + 20 <= len buf) as L2 by (destruct w; cbn [wave_data] in L; lia). split.
      * unfold bind. rewrite (rd_be_at_total 4 buf (pos + 12) _ ltac:(discriminate) ltac:(lia) R1). unfold guard at 1. rewrite N.eqb_refl. unfold ret at 1. replace (pos + 12 + N.of_nat 4) with (pos + 16) by lia. rewrite (rd_be_at_total 4 buf (pos + 16) _ ltac:(discriminate) ltac:(lia) R2).
        unfold lift. rewrite HM by lia. apply span_ok in C. rewrite C. unfold guard. rewrite N.eqb_refl. unfold ret. do 2 f_equal. lia.
      * apply HU; [exact L2|]. split; [destruct w; easy|]. destruct w; try discriminate; cbn [wave_data] in *; lia.
  - split.
    + intros (n & q & R & H). apply bind_inv in R as (n' & p3 & R2 & R). apply rd_be_at in R2 as (R2 & -> & L2); [|discriminate]. apply bind_inv in R as (cs & p5 & C & R). apply lift_eq in C as [C <-].
      apply bind_inv in R as (z2 & p6 & G & R). apply guard_inv in G as [G <-]. apply N.eqb_eq in G as ->. apply ret_inv in R as [<- <-]. change (N.of_nat 4) with 4 in *. replace (pos + 12 + 4) with (pos + 16) in * by lia.
      apply HU in H as [_ L]; [|exact L2]. exists cs. assert (wave_width w * cs = cs) as W1 by (destruct w; try discriminate; cbn [wave_width]; lia). rewrite W1 in *. split; [now apply span_ok|]. split; [destruct w; try discriminate; cbn [wave_data]; lia|]. split; destruct w; easy.
    + intros (n & C & L & R & _). assert (wave_width w * n = n) as W1 by (destruct w; try discriminate; cbn [wave_width]; lia). rewrite W1 in *. assert (number_be buf (pos + 12) 4 = Some n) as R1 by (destruct w; easy). exists n, (pos + 16). assert (pos + 20 + n <= len buf) as L2 by (destruct w; try discriminate; cbn [wave_data] in L; lia). split.
      * unfold bind. rewrite (rd_be_at_total 4 buf (pos + 12) _ ltac:(discriminate) ltac:(lia) R1). unfold lift. apply span_ok in C. rewrite C. unfold guard. rewrite N.eqb_refl. unfold ret. do 2 f_equal. lia.
      * apply HU; [lia|]. rewrite W1. split; [destruct w; easy|]. destruct w; try discriminate; lia.
Qed.
(** Paths. *)
Lemma until0_read buf : forall fuel us pos p, rd_until0 fuel (rd_be 2) buf pos = Ok (us, p) ->
  p = pos + 2 * len us + 2 /\ p <= len buf /\ number_be buf (pos + 2 * len us) 2 = Some 0 /\ forall i, i < len us -> exists u, number_be buf (pos + 2 * i) 2 = Some u /\ u <> 0.
Proof.
  induction fuel as [|fuel IH]; intros us pos p H; [easy|]. cbn [rd_until0] in H. apply bind_inv in H as (u & p1 & R & H). apply rd_be_at in R as (R & -> & L); [|discriminate]. change (N.of_nat 2) with 2 in *. destruct (u =? 0) eqn:EU.
  - apply ret_inv in H as [<- <-]. apply N.eqb_eq in EU as ->. rewrite (@len_nil N). replace (pos + 2 * 0) with pos by lia. split; [reflexivity|]. split; [exact L|]. split; [exact R|]. intros i Hi. lia.
  - apply bind_inv in H as (r & p2 & R2 & H). apply ret_inv in H as [<- <-]. apply IH in R2 as (-> & L2 & Z & A). rewrite len_cons. split; [lia|]. split; [exact L2|]. split; [now replace (pos + 2 * (1 + len r)) with (pos + 2 + 2 * len r) by lia|].
    intros i Hi. destruct (N.eq_dec i 0) as [->|NZ]; [exists u; replace (pos + 2 * 0) with pos by lia; split; [exact R|lia]|]. destruct (A (i - 1) ltac:(lia)) as (v & V). exists v. now replace (pos + 2 * i) with (pos + 2 + 2 * (i - 1)) by lia.
Qed.
Lemma until0_total buf : forall m fuel pos, (m < fuel)%nat -> number_be buf (pos + 2 * N.of_nat m) 2 = Some 0 -> (forall i, i < N.of_nat m -> exists u, number_be buf (pos + 2 * i) 2 = Some u /\ u <> 0) ->
  exists us, rd_until0 fuel (rd_be 2) buf pos = Ok (us, pos + 2 * N.of_nat m + 2) /\ len us = N.of_nat m.
Proof.
  induction m as [|m IH]; intros fuel pos HF HZ HA; (destruct fuel as [|fuel]; [lia|]); cbn [rd_until0]; unfold bind.
  - replace (pos + 2 * N.of_nat 0) with pos in HZ by lia. rewrite (rd_be_at_total 2 buf pos 0 ltac:(discriminate) (number_be_len buf 2 pos 0 ltac:(discriminate) HZ) HZ). cbn [N.eqb]. unfold ret. exists []. split; [do 2 f_equal; lia|reflexivity].
  - destruct (HA 0 ltac:(lia)) as (u & U & NZ). replace (pos + 2 * 0) with pos in U by lia. rewrite (rd_be_at_total 2 buf pos u ltac:(discriminate) (number_be_len buf 2 pos u ltac:(discriminate) U) U). change (N.of_nat 2) with 2. replace (u =? 0) with false by lia.
    destruct (IH fuel (pos + 2) ltac:(lia)) as (us & R & L).
    + now replace (pos + 2 + 2 * N.of_nat m) with (pos + 2 * N.of_nat (S m)) by lia.
    + intros i Hi. destruct (HA (i + 1) ltac:(lia)) as (v & V). exists v. now replace (pos + 2 + 2 * i) with (pos + 2 * (i + 1)) by lia.
    + rewrite R. unfold ret. exists (u :: us). split; [do 2 f_equal; lia|rewrite len_cons, L; lia].
Qed.
Lemma path_accepts b buf pos s t : bytes_ok buf -> len buf < 2 ^ 32 -> has buf pos (letters "PPTH") -> number_be buf (pos + 4) 4 = Some s -> number_be buf (pos + 8) 4 = Some t ->
  (acc (rd_section b) buf pos <-> exists m, span b s t = Some (2 * m + 2) /\ number_be buf (pos + 12) 4 = Some (2 * m + 2) /\
    number_be buf (pos + 16 + 2 * m) 2 = Some 0 /\ forall i, i < m -> exists u, number_be buf (pos + 16 + 2 * i) 2 = Some u /\ u <> 0).
Proof.
  intros HB H32 HK HS HT. destruct (section_acc b buf pos s t HB HS HT) as (h & H1 & <- & <- & HL & ->). pose proof (kind_is buf pos "PPTH" KPath h _ HB ltac:(cbn; auto 20) HK H1) as K. unfold rd_content. rewrite K. unfold rd_path.
  assert (forall us : list N, 2 * len us + 2 <= len buf -> path_size b us = Ok (2 * len us + 2)) as HP.
  { intros us LU. unfold path_size. rewrite N.mod_small by lia. unfold wadd, wmul. replace (len us + 1 <? 2 ^ 32) with true by lia. cbn [res_bind]. replace ((len us + 1) * 2 <? 2 ^ 32) with true by lia. f_equal. lia. }
  rewrite acc_be by discriminate. change (N.of_nat 4) with 4. replace (pos + 12 + 4) with (pos + 16) by lia. unfold content_size. split.
  - intros (n & R & H). apply acc_lift in H as (cs & C & H). apply acc_guard in H as [G H]. apply N.eqb_eq in G as ->. destruct H as (y & q & H). apply bind_inv in H as (us & p1 & U & H). unfold rd_nullwide in U. apply until0_read in U as (-> & L & Z & A).
    apply bind_inv in H as (c2 & p2 & C2 & H). apply lift_eq in C2 as [_ <-]. apply bind_inv in H as (z & p3 & G & H). apply guard_inv in G as [_ <-]. apply bind_inv in H as (m & p4 & M & H). apply lift_eq in M as [M <-]. apply bind_inv in H as (z2 & p5 & G & H). apply guard_inv in G as [G <-]. apply N.eqb_eq in G as ->.
    rewrite HP in M by lia. assert (cs = 2 * len us + 2) as -> by congruence. exists (len us). split; [now apply span_ok|]. split; [exact R|]. split; [exact Z|exact A].
  - intros (m & C & R & Z & A). exists (2 * m + 2). split; [exact R|]. apply span_ok in C. apply acc_lift. exists (2 * m + 2). split; [exact C|]. apply acc_guard. split; [apply N.eqb_refl|]. pose proof (number_be_len buf 2 _ _ ltac:(discriminate) Z) as L. change (N.of_nat 2) with 2 in L.
    destruct (until0_total buf (N.to_nat m) (S (List.length buf)) (pos + 16)) as (us & U & LU); [unfold len in L; lia|now rewrite N2Nat.id|now rewrite N2Nat.id|]. rewrite N2Nat.id in *. exists (CPath us), (pos + 16 + 2 * m + 2). unfold bind. unfold rd_nullwide at 1. rewrite U. unfold lift. rewrite C. unfold guard at 1. rewrite N.eqb_refl. unfold ret at 1. rewrite HP by lia. rewrite LU. unfold guard. rewrite N.eqb_refl. reflexivity.
Qed.
(** The kinds of cues and of whole files are no kinds of sections. *)
Lemma kind_refused b buf pos x k p : bytes_ok buf -> In (x, k) [("PMAI", KFile); ("PCPT", KCue); ("PCP2", KExtendedCue)]%string -> has buf pos (letters x) -> forall s, rd_section b buf pos <> Ok (s, p).
Proof.
  intros HB HI HK s H. unfold rd_section in H. apply bind_inv in H as (h & p1 & R & H). assert (In (x, k) kind_letters) as HI2 by (cbn in HI |- *; intuition auto 30). pose proof (kind_is buf pos x k h _ HB HI2 HK R) as K. apply bind_inv in H as (c & p2 & C & _). unfold rd_content in C. rewrite K in C.
  cbn in HI. destruct HI as [E|[E|[E|[]]]]; injection E as <- <-; discriminate.
Qed.
(** Song structures. *)
Definition room (b : build) (n m : N) : Prop := match b with Debug => n <= m | Release => True end.
Lemma masked_same n q buf a c : masked n q buf a -> masked n q buf c -> forall i, getN a (q + i) = getN c (q + i).
Proof.
  intros [LA HA] [LC HC] i. destruct (getN buf (q + i)) as [x|] eqn:E.
  - assert (i mod 19 < len mask_bytes) as LM by (change (len mask_bytes) with 19; now apply N.mod_lt). apply getN_lt_Some in LM as [m M]. now rewrite (HA i x m E M), (HC i x m E M).
  - assert (len buf <= q + i) as L. { destruct (N.le_gt_cases (len buf) (q + i)) as [L|L]; [exact L|]. apply getN_lt_Some in L as [y Y]. congruence. }
    assert (forall l : list N, len l = len buf -> getN l (q + i) = None) as HN. { intros l LL. destruct (getN l (q + i)) eqn:G; [apply getN_Some_lt in G; lia|reflexivity]. }
    now rewrite (HN a LA), (HN c LC).
Qed.
Lemma same_numbers (a c : list N) q : (forall i, getN a (q + i) = getN c (q + i)) -> forall w i, number_be a (q + i) w = number_be c (q + i) w.
Proof. intro H. induction w as [|w IH]; intro i; [reflexivity|]. cbn [number_be]. rewrite <- N.add_assoc, H, IH. reflexivity. Qed.
Lemma mood_bytes (buf : list N) q x y : getN buf q = Some x -> getN buf (q + 1) = Some y -> number_be buf q 2 = Some (mood_code x y).
Proof. intros X Y. cbn [number_be]. change (N.of_nat 1) with 1. change (N.of_nat 0) with 0. rewrite N.add_0_r, X, Y. unfold mood_code. f_equal. lia. Qed.
Lemma song_tail_accepts b buf q n : bytes_ok buf -> q <= len buf ->
  (acc (let* p <- tell; let* raw <- rd_bytes 2; let* _ <- seek_to p; let* e <- lift (check_if_encrypted b raw n); let* d <- rd_encrypted b e n; ret {| so_encrypted := e; so_data := d |}) buf q <->
   q + 14 + 24 * n <= len buf /\ exists buf', (masked n q buf buf' /\ room b n 65285 \/ buf' = buf /\ room b n 65310) /\
     (exists m, number_be buf' q 2 = Some m /\ 1 <= m <= 3) /\ exists x, getN buf' (q + 12) = Some x /\ x <= 8).
Proof.
  intros HB HQ. destruct (N.le_gt_cases (q + 2) (len buf)) as [L2|L2].
  2:{ split; [|intros [L _]; lia]. intros (y & p & H). apply bind_inv in H as (p0 & p1 & T & H). unfold tell in T. injection T as <- <-. apply bind_inv in H as (raw & p2 & R & _). apply rd_bytes_at in R as (_ & _ & -> & L); lia. }
  assert (q < len buf) as LX by lia. assert (q + 1 < len buf) as LY by lia. apply getN_lt_Some in LX as [x X]. apply getN_lt_Some in LY as [y Y].
  assert (x < 256 /\ y < 256) as [X8 Y8]. { unfold bytes_ok in HB. rewrite Forall_forall in HB. unfold getN in X, Y. apply nth_error_In in X, Y. now split; apply HB. }
  assert (rd_bytes 2 buf q = Ok ([x; y], q + 2)) as RAW.
  { change 2 with (len [x; y]) at 1. change (q + 2) with (q + len [x; y]). apply rd_bytes_has. destruct (rd_bytes_ok 2 buf q L2) as [bs BS]. apply rd_bytes_at in BS as (HH & LB & _); [|exact HQ].
    destruct bs as [|x' [|y' [|z bs]]]; try (rewrite ?len_cons, ?(@len_nil N) in LB; lia). destruct HH as (u & v & -> & LU). pose proof X as X'. pose proof Y as Y'.
    rewrite getN_app in X', Y'. replace (q <? len u) with false in X' by lia. replace (q + 1 <? len u) with false in Y' by lia. replace (q - len u) with 0 in X' by lia. replace (q + 1 - len u) with 1 in Y' by lia. cbn in X', Y'. injection X' as ->. injection Y' as ->. now exists u, v. }
  assert (acc (let* p <- tell; let* raw <- rd_bytes 2; let* _ <- seek_to p; let* e <- lift (check_if_encrypted b raw n); let* d <- rd_encrypted b e n; ret {| so_encrypted := e; so_data := d |}) buf q <->
          exists e, check_if_encrypted b [x; y] n = Ok e /\ acc (rd_encrypted b e n) buf q) as ->.
  { unfold acc, bind. unfold tell. rewrite RAW. unfold seek_to, lift, ret. destruct (check_if_encrypted b [x; y] n) as [e|e|].
    - split.
      + intros (r & p & H). exists e. split; [reflexivity|]. destruct (rd_encrypted b e n buf q) as [[d p']| |]; try discriminate. now exists d, p'.
      + intros (e' & E & d & p & H). injection E as <-. rewrite H. now eexists _, p.
    - split; [intros (r & p & H); discriminate|intros (e' & E & _); discriminate].
    - split; [intros (r & p & H); discriminate|intros (e' & E & _); discriminate]. }
  assert (room b n 65310 \/ (b = Debug /\ 65310 < n)) as [RM|[-> RM]] by (unfold room; destruct b; [destruct (N.le_gt_cases n 65310); [now left|now right]|now left]).
  2:{ split; [|intros (_ & buf' & [[_ R]|[_ R]] & _); cbn in R; lia]. intros (e & E & _). apply check_inv in E. rewrite get_key_2_panic in E by exact RM. discriminate. }
  pose proof (check_spec b x y n X8 Y8 (key_fits_2 b n RM)) as CK.
  assert (forall buf', masked n q buf buf' -> number_be buf' q 2 = Some (mood_code (N.lxor x (key0 n)) (N.lxor y (key1 n)))) as HM.
  { intros buf' [_ M]. apply mood_bytes; [|now apply (M 1 y 0xE1)]. specialize (M 0 x 0xCB). rewrite N.add_0_r in M. now apply M. }
  assert (N.lxor y (key1 n) < 256) as Y8' by (apply lxor_byte; [exact Y8|now apply N.mod_lt]).
  assert (forall x' y', y' < 256 -> (mem (mood_code x' y') [1; 2; 3] = true <-> 1 <= mood_code x' y' <= 3)) as HMM by (intros x' y' Hy; rewrite mem_mood by exact Hy; unfold mood_code, valid_mood; lia).
  destruct (mem (mood_code (N.lxor x (key0 n)) (N.lxor y (key1 n))) [1; 2; 3]) eqn:EM.
  - assert (~ 1 <= mood_code x y <= 3) as NP.
    { intro C. assert (x = 0 /\ valid_mood y) as [E0 V] by (clear - C Y8; unfold mood_code in C; unfold valid_mood; lia). rewrite E0 in *. rewrite (check_plain b y n V (key_fits_2 b n RM)) in CK. discriminate. }
    split.
    + intros (e & E & H). rewrite CK in E. injection E as <-. cbn [rd_encrypted] in H. apply acc_lift in H as (key & K & d & p & H).
      assert (room b n 65285) as R19. { unfold room. destruct b; [|exact I]. destruct (N.le_gt_cases n 65285) as [L|L]; [exact L|]. rewrite get_key_19_panic in K by exact L. discriminate. }
      apply get_key_val in K. change (takeN 19 (song_key n)) with (song_key n) in K. subst key. destruct (proj1 (song_accepts (xor_view (song_key n) q buf) q n ltac:(rewrite len_view; lia))) as (L & M & B); [now exists d, p|]. rewrite len_view in L. split; [exact L|].
      exists (xor_view (song_key n) q buf). split; [left; split; [apply view_masked|exact R19]|]. split; [exact M|exact B].
    + intros (L & buf' & HC & (m & M1 & M2) & B). exists true. split; [exact CK|]. destruct HC as [[MK R19]|[-> _]].
      2:{ rewrite (mood_bytes buf q x y X Y) in M1. injection M1 as <-. now destruct NP. }
      cbn [rd_encrypted]. apply acc_lift. exists (song_key n). split; [apply get_key_19, key_fits_19, R19|].
      pose proof (masked_same n q buf buf' _ MK (view_masked n q buf)) as SM. destruct (proj2 (song_accepts (xor_view (song_key n) q buf) q n ltac:(rewrite len_view; lia))) as (d & p & R); [|now exists d, p].
      rewrite len_view. split; [exact L|]. split; [exists m; split; [|exact M2]|].
      * rewrite <- M1. pose proof (same_numbers buf' (xor_view (song_key n) q buf) q SM 2 0) as E. rewrite N.add_0_r in E. now symmetry.
      * destruct B as (z & Z1 & Z2). exists z. now rewrite <- SM.
  - split.
    + intros (e & E & H). rewrite CK in E. injection E as <-. cbn [rd_encrypted] in H. apply (song_accepts buf q n HQ) in H as (L & M & B). split; [exact L|]. exists buf. split; [right; now split|]. split; [exact M|exact B].
    + intros (L & buf' & HC & (m & M1 & M2) & B). exists false. split; [exact CK|]. destruct HC as [[MK _]|[-> _]].
      { rewrite (HM buf' MK) in M1. injection M1 as <-. apply (proj2 (HMM _ _ Y8')) in M2. congruence. }
      cbn [rd_encrypted]. apply (song_accepts buf q n HQ). split; [exact L|]. split; [now exists m|exact B].
Qed.
Lemma song_section_accepts b buf pos s t n : bytes_ok buf -> has buf pos (letters "PSSI") -> number_be buf (pos + 4) 4 = Some s -> number_be buf (pos + 8) 4 = Some t -> number_be buf (pos + 16) 2 = Some n ->
  (acc (rd_section b) buf pos <-> number_be buf (pos + 12) 4 = Some 24 /\ span b s t = Some (24 * n) /\ pos + 32 + 24 * n <= len buf /\
   exists buf', (masked n (pos + 18) buf buf' /\ room b n 65285 \/ buf' = buf /\ room b n 65310) /\
     (exists m, number_be buf' (pos + 18) 2 = Some m /\ 1 <= m <= 3) /\ exists x, getN buf' (pos + 30) = Some x /\ x <= 8).
Proof.
  intros HB HK HS HT HN. destruct (section_acc b buf pos s t HB HS HT) as (h & H1 & <- & <- & HL & ->). pose proof (kind_is buf pos "PSSI" KSongStructure h _ HB ltac:(cbn; auto 20) HK H1) as K. unfold rd_content. rewrite K. rewrite acc_last. unfold rd_song.
  pose proof (number_be_len buf 2 _ _ ltac:(discriminate) HN) as LN. change (N.of_nat 2) with 2 in LN.
  assert (n < 65536) as N16. { pose proof (rd_be_at_total 2 buf (pos + 16) n ltac:(discriminate) LN HN) as R. apply rd_be2_inv in R as (R & _); [exact R|exact HB]. }
  assert (wmul b 32 24 n = Ok (24 * n)) as HM by (unfold wmul; now replace (24 * n <? 2 ^ 32) with true by lia).
  pose proof (song_tail_accepts b buf (pos + 18) n HB ltac:(lia)) as HT2. replace (pos + 18 + 14) with (pos + 32) in HT2 by lia. replace (pos + 18 + 12) with (pos + 30) in HT2 by lia.
  rewrite acc_be by discriminate. change (N.of_nat 4) with 4. replace (pos + 12 + 4) with (pos + 16) by lia. unfold content_size. split.
  - intros (eb & E & H). apply acc_guard in H as [G H]. apply N.eqb_eq in G as ->. apply acc_be in H as (n' & N' & H); [|discriminate]. assert (n' = n) as -> by congruence. change (N.of_nat 2) with 2 in H. replace (pos + 16 + 2) with (pos + 18) in H by lia.
    apply acc_lift in H as (m & M & H). apply acc_lift in H as (cs & C & H). apply acc_guard in H as [G H]. apply N.eqb_eq in G as ->. assert (cs = 24 * n) as -> by congruence. apply HT2 in H as [L H]. split; [exact E|]. split; [now apply span_ok|]. now split.
  - intros (E & C & L & H). exists 24. split; [exact E|]. apply acc_guard. split; [reflexivity|]. apply acc_be; [discriminate|]. exists n. split; [exact HN|]. change (N.of_nat 2) with 2. replace (pos + 16 + 2) with (pos + 18) by lia.
    apply acc_lift. exists (24 * n). split; [exact HM|]. apply acc_lift. exists (24 * n). split; [now apply span_ok|]. apply acc_guard. split; [apply N.eqb_refl|]. apply HT2. now split.
Qed.
