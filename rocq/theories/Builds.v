(** * Builds with and without overflow checks *)
From Coq Require Import NArith ZArith List Bool Lia.
From Verif Require Import Base Utf Str Schema Oa Rows Page Alloc Db Dump Xor Anlz Setting Device Cli CliList Listing Session Delete Revise Relink.
Import ListNotations.
Open Scope N_scope.

(** ** Results that agree: the same, or the build with checks panics *)
Definition agree {A} (x y : res A) : Prop := x = Panic \/ x = y.
Definition agree_w (f g : writer) : Prop := forall s, agree (f s) (g s).
Definition agree_p {A} (p q : parser A) : Prop := forall buf pos, agree (p buf pos) (q buf pos).

Lemma ag_refl {A} (x : res A) : agree x x. Proof. now right. Qed.
Lemma agp_refl {A} (p : parser A) : agree_p p p. Proof. intros ? ?. now right. Qed.
Lemma ag_bind {A B} (x y : res A) (f g : A -> res B) : agree x y -> (forall a, agree (f a) (g a)) -> agree (res_bind x f) (res_bind y g).
Proof. intros [-> | ->] H; [now left|]. destruct y; cbn; [apply H | now right | now left]. Qed.
Lemma agp_bind {A B} (p q : parser A) (f g : A -> parser B) : agree_p p q -> (forall a, agree_p (f a) (g a)) -> agree_p (bind p f) (bind q g).
Proof.
  intros H H2 buf pos. unfold bind. destruct (H buf pos) as [-> | ->]; [now left|]. destruct (q buf pos) as [[a n] | e |]; [apply H2 | now right | now left].
Qed.
Lemma agp_lift {A} (x y : res A) : agree x y -> agree_p (lift x) (lift y).
Proof. intros [-> | ->] buf pos; [now left | now right]. Qed.
Lemma agp_orelse {A} (p q p' q' : parser A) : agree_p p p' -> agree_p q q' -> agree_p (orelse p q) (orelse p' q').
Proof.
  intros H H2 buf pos. unfold orelse. destruct (H buf pos) as [-> | ->]; [now left|]. destruct (p' buf pos) as [[a n] | e |]; [now right | | now left].
  destruct (H2 buf pos) as [-> | ->]; [now left|]. now right.
Qed.
Lemma agp_count {A} n (p q : parser A) : agree_p p q -> agree_p (rd_count n p) (rd_count n q).
Proof. intros H. induction n as [|n IH]; cbn; [apply agp_refl|]. apply agp_bind; [exact H|]. intro a. apply agp_bind; [exact IH|]. intro l. apply agp_refl. Qed.

Lemma ag_wadd w x y : agree (wadd Debug w x y) (wadd Release w x y).
Proof. unfold wadd. destruct (_ <? _); [now right | now left]. Qed.
Lemma ag_wsub w x y : agree (wsub Debug w x y) (wsub Release w x y).
Proof. unfold wsub. destruct (_ <=? _); [now right | now left]. Qed.
Lemma ag_wmul w x y : agree (wmul Debug w x y) (wmul Release w x y).
Proof. unfold wmul. destruct (_ <? _); [now right | now left]. Qed.

Create HintDb ag discriminated.
#[export] Hint Resolve ag_wadd ag_wsub ag_wmul : ag.
(** One step: equal results, binds, functions that are known, and cases. *)
Ltac ag1 :=
  match goal with
  | |- agree ?x ?y => constr_eq x y; apply ag_refl
  | |- agree_p ?x ?y => constr_eq x y; apply agp_refl
  | |- agree_p (bind _ _) (bind _ _) => apply agp_bind; [|intro]
  | |- agree_p (lift _) (lift _) => apply agp_lift
  | |- agree_p (rd_count _ _) (rd_count _ _) => apply agp_count
  | |- agree_p (orelse _ _) (orelse _ _) => apply agp_orelse
  | |- agree (res_bind _ _) (res_bind _ _) => apply ag_bind; [|intro]
  | |- _ => solve [auto with ag nocore]
  | |- agree (match ?x with _ => _ end) (match ?x with _ => _ end) => destruct x
  | |- agree_p (match ?x with _ => _ end) (match ?x with _ => _ end) => destruct x
  end.
Ltac ag := repeat ag1.

(** ** Strings and fields *)
Lemma ag_dstr_enc d : agree (dstr_enc Debug d) (dstr_enc Release d). Proof. unfold dstr_enc. ag. Qed.
#[export] Hint Resolve ag_dstr_enc : ag.
Lemma ag_dstr_write d s : agree (dstr_write Debug d s) (dstr_write Release d s). Proof. unfold dstr_write. ag. Qed.
Lemma agp_dstr : agree_p (rd_dstr Debug) (rd_dstr Release). Proof. unfold rd_dstr, rd_dstr_short, rd_dstr_long. ag. Qed.
Lemma ag_dstr_heap d : agree (dstr_heap Debug d) (dstr_heap Release d). Proof. unfold dstr_heap. ag. Qed.
#[export] Hint Resolve ag_dstr_write agp_dstr ag_dstr_heap : ag.
Lemma ag_field f v : agree (enc_field Debug f v) (enc_field Release f v). Proof. unfold enc_field. ag. Qed.
#[export] Hint Resolve ag_field : ag.
Lemma ag_fields fs : forall vs, agree (enc_fields Debug fs vs) (enc_fields Release fs vs).
Proof. induction fs as [|f fs IH]; intros vs; cbn; ag; apply IH. Qed.
#[export] Hint Resolve ag_fields : ag.
Lemma agp_rfield p q f : agree_p p q -> agree_p (rd_field p f) (rd_field q f). Proof. intros H. unfold rd_field. ag. Qed.
Lemma agp_rfields p q fs : agree_p p q -> agree_p (rd_fields p fs) (rd_fields q fs).
Proof. intros H. induction fs as [|f fs IH]; cbn [rd_fields]; ag; first [now apply agp_rfield | exact IH]. Qed.

(** ** Offset arrays *)
Lemma ag_items_calc base l : forall s, agree (wr_items_calc Debug base l s) (wr_items_calc Release base l s).
Proof. induction l as [|d l IH]; intros s; cbn [wr_items_calc]; cbv zeta; ag; apply IH. Qed.
Lemma ag_items_at base l : forall os s, agree (wr_items_at Debug base l os s) (wr_items_at Release base l os s).
Proof. induction l as [|d l IH]; intros os s; cbn [wr_items_at]; ag; apply IH. Qed.
#[export] Hint Resolve ag_items_calc ag_items_at : ag.
Lemma ag_oarr off sz c s : agree (oarr_write Debug off sz c s) (oarr_write Release off sz c s).
Proof. unfold oarr_write. cbv zeta. ag. Qed.
Lemma ag_heap_items calc l : forall n, agree (oarr_heap_items Debug calc l n) (oarr_heap_items Release calc l n).
Proof. induction l as [|d l IH]; intros n; cbn [oarr_heap_items]; cbv zeta; ag; apply IH. Qed.
#[export] Hint Resolve ag_oarr ag_heap_items : ag.
Lemma ag_oarr_heap sz c : agree (oarr_heap Debug sz c) (oarr_heap Release sz c). Proof. unfold oarr_heap. ag. Qed.
#[export] Hint Resolve ag_oarr_heap : ag.
Lemma ag_rd_items p q base buf : agree_p p q -> forall os cur, agree (Oa.rd_items p base cur os buf) (Oa.rd_items q base cur os buf).
Proof.
  intros H. induction os as [|o os IH]; intros cur; cbn [Oa.rd_items]; [apply ag_refl|].
  destruct (H buf (cur + o)) as [-> | ->]; [now left|]. destruct (q buf (cur + o)) as [[d n] | e |]; [| | now left].
  - destruct (IH base) as [-> | ->]; [now left|]. apply ag_refl.
  - destruct (IH (cur + o)) as [-> | ->]; [now left|]. apply ag_refl.
Qed.
Lemma agp_oarr p q off sz n : agree_p p q -> agree_p (rd_oarr p off sz n) (rd_oarr q off sz n).
Proof.
  intros H buf pos. unfold rd_oarr. destruct (rd_offs sz n buf pos) as [[o m] | e |]; [| now right | now left].
  ag. now apply ag_rd_items.
Qed.

(** ** Rows and pages *)
Lemma agp_row p q pt : agree_p p q -> agree_p (rd_row p pt) (rd_row q pt).
Proof. intros H. unfold rd_row. ag; first [now apply agp_rfields | now apply agp_oarr]. Qed.
Lemma ag_row r s : agree (row_write Debug r s) (row_write Release r s). Proof. unfold row_write. ag. Qed.
#[export] Hint Resolve ag_row : ag.
Lemma ag_hterm vs oc t : agree (hterm_size Debug vs oc t) (hterm_size Release vs oc t). Proof. unfold hterm_size. ag. Qed.
Lemma ag_sum vs oc l : forall n, agree (sum_u16 Debug n (map (hterm_size Debug vs oc) l)) (sum_u16 Release n (map (hterm_size Release vs oc) l)).
Proof. induction l as [|t l IH]; intros n; cbn [map sum_u16]; ag; first [apply ag_hterm | apply IH]. Qed.
Lemma ag_row_heap r : agree (row_heap Debug r) (row_heap Release r).
Proof. unfold row_heap. destruct r; [apply ag_sum | apply ag_refl]. Qed.
Lemma ag_offset i n : agree (page_offset Debug i n) (page_offset Release i n). Proof. unfold page_offset. ag. Qed.
Lemma ag_phdr h : agree (phdr_enc Debug h) (phdr_enc Release h). Proof. unfold phdr_enc. ag. Qed.
Lemma ag_total n : agree (total_entries Debug n) (total_entries Release n). Proof. unfold total_entries. ag. Qed.
Lemma ag_heap n : agree (page_heap_size Debug n) (page_heap_size Release n). Proof. unfold page_heap_size. ag. Qed.
#[export] Hint Resolve ag_offset ag_phdr ag_total ag_heap : ag.
Lemma ag_icontent n c : agree (icontent_enc Debug n c) (icontent_enc Release n c). Proof. unfold icontent_enc. ag. Qed.
#[export] Hint Resolve ag_icontent : ag.
Lemma ag_rows_at p q pt base buf : agree_p p q -> forall os m, agree (rd_rows_at p pt base os m buf) (rd_rows_at q pt base os m buf).
Proof.
  intros H. induction os as [|o os IH]; intros m; cbn [rd_rows_at]; [apply ag_refl|].
  destruct (agp_row p q pt H buf (base + o)) as [-> | ->]; [now left|]. destruct (rd_row q pt buf (base + o)) as [[r n] | e |]; [apply IH | now right | now left].
Qed.
Lemma agp_dcontent p q n h : agree_p p q -> agree_p (rd_dcontent Debug p n h) (rd_dcontent Release q n h).
Proof.
  intros H. unfold rd_dcontent. ag. intros buf pos.
  match goal with |- agree (match rd_rows_at _ ?pt ?b ?os _ _ with _ => _ end) _ => destruct (ag_rows_at p q pt b buf H os []) as [-> | ->] end; [now left | now right].
Qed.
Lemma agp_page p q n k : agree_p p q -> agree_p (rd_page Debug p n k) (rd_page Release q n k).
Proof. intros H. unfold rd_page. ag. now apply agp_dcontent. Qed.
Lemma ag_wr_rows base l : forall s, agree (wr_rows_at Debug base l s) (wr_rows_at Release base l s).
Proof. induction l as [|[o r] l IH]; intros s; cbn [wr_rows_at]; ag; apply IH. Qed.
#[export] Hint Resolve ag_wr_rows : ag.
Lemma ag_dcontent n c s : agree (dcontent_write Debug n c s) (dcontent_write Release n c s).
Proof. unfold dcontent_write. cbv zeta. ag. Qed.
#[export] Hint Resolve ag_dcontent : ag.
Lemma ag_page n p s : agree (page_write Debug n p s) (page_write Release n p s). Proof. unfold page_write. ag. Qed.

(** ** Allocation *)
Lemma ag_mul4 n : agree (next_mul4 Debug n) (next_mul4 Release n). Proof. unfold next_mul4. ag. Qed.
#[export] Hint Resolve ag_mul4 : ag.
Lemma ag_alloc n p : agree (alloc_row Debug n p) (alloc_row Release n p). Proof. unfold alloc_row. cbv zeta. ag. Qed.
#[export] Hint Resolve ag_alloc : ag.
Lemma ag_step n r p : agree (step Debug n r p) (step Release n r p). Proof. unfold step. ag. Qed.
#[export] Hint Resolve ag_step : ag.
Lemma ag_run l : forall p, agree (run Debug l p) (run Release l p).
Proof. induction l as [|[n r] l IH]; intros p; cbn [run]; ag; apply IH. Qed.

(** ** Analysis files *)
Lemma ag_remaining h : agree (remaining_size Debug h) (remaining_size Release h). Proof. unfold remaining_size. ag. Qed.
Lemma ag_content_size h : agree (content_size Debug h) (content_size Release h). Proof. unfold content_size. ag. Qed.
#[export] Hint Resolve ag_remaining ag_content_size : ag.
Lemma ag_byte_len s : agree (byte_len Debug s) (byte_len Release s). Proof. unfold byte_len. ag. Qed.
#[export] Hint Resolve ag_byte_len : ag.
Lemma ag_trailing h s : agree (trailing_size Debug h s) (trailing_size Release h s). Proof. unfold trailing_size. ag. Qed.
#[export] Hint Resolve ag_trailing : ag.
Lemma agp_ecue : agree_p (rd_ecue Debug) (rd_ecue Release). Proof. unfold rd_ecue. ag. Qed.
#[export] Hint Resolve agp_ecue : ag.
Lemma agp_wave_count h w : agree_p (rd_wave_count Debug h w) (rd_wave_count Release h w). Proof. unfold rd_wave_count. ag. Qed.
#[export] Hint Resolve agp_wave_count : ag.
Lemma agp_wave h w : agree_p (rd_wave Debug h w) (rd_wave Release h w). Proof. unfold rd_wave. ag. Qed.
#[export] Hint Resolve agp_wave : ag.
Lemma ag_key_byte n x : agree (key_byte Debug n x) (key_byte Release n x). Proof. unfold key_byte. ag. Qed.
Lemma ag_keys n l : agree (all_ok (map (key_byte Debug n) l)) (all_ok (map (key_byte Release n) l)).
Proof. induction l as [|x l IH]; cbn [map all_ok]; ag; first [apply ag_key_byte | exact IH]. Qed.
Lemma ag_get_key n k : agree (get_key Debug n k) (get_key Release n k). Proof. unfold get_key. apply ag_keys. Qed.
#[export] Hint Resolve ag_get_key : ag.
Lemma ag_encrypted raw n : agree (check_if_encrypted Debug raw n) (check_if_encrypted Release raw n). Proof. unfold check_if_encrypted. ag. Qed.
#[export] Hint Resolve ag_encrypted : ag.
Lemma agp_encrypted e n : agree_p (rd_encrypted Debug e n) (rd_encrypted Release e n). Proof. unfold rd_encrypted. ag. Qed.
#[export] Hint Resolve agp_encrypted : ag.
Lemma agp_song h : agree_p (rd_song Debug h) (rd_song Release h). Proof. unfold rd_song. ag. Qed.
Lemma ag_path_size l : agree (path_size Debug l) (path_size Release l). Proof. unfold path_size. ag. Qed.
#[export] Hint Resolve agp_song ag_path_size : ag.
Lemma agp_content h : agree_p (rd_content Debug h) (rd_content Release h).
Proof. unfold rd_content, rd_ecue_list, rd_path, rd_vbr, rd_unknown. cbv zeta. ag. Qed.
#[export] Hint Resolve agp_content : ag.
Lemma agp_section : agree_p (rd_section Debug) (rd_section Release). Proof. unfold rd_section. ag. Qed.
Lemma ag_loop final buf : forall n pos,
  sections_loop n Debug final buf pos = Some Panic \/ sections_loop n Debug final buf pos = sections_loop n Release final buf pos.
Proof.
  induction n as [|n IH]; intros pos; cbn [sections_loop]; [now right|]. destruct (pos <? final); [|now right].
  destruct (agp_section buf pos) as [-> | ->]; [now left|]. destruct (rd_section Release buf pos) as [[s p] | e |]; [| now right | now left].
  destruct (IH p) as [-> | ->]; [now left | now right].
Qed.
Lemma agp_sections n : agree_p (parse_sections Debug n) (parse_sections Release n).
Proof.
  intros buf pos. unfold parse_sections. destruct (ag_wadd 64 pos n) as [-> | ->]; [now left|]. destruct (wadd Release 64 pos n); [| now right | now left].
  destruct (ag_loop a buf (S (length buf)) pos) as [-> | ->]; [now left | now right].
Qed.
#[export] Hint Resolve agp_sections : ag.
Lemma agp_anlz : agree_p (rd_anlz Debug) (rd_anlz Release). Proof. unfold rd_anlz. ag. Qed.

Lemma ag_enc_all {A} (f g : A -> res (list N)) l : (forall x, agree (f x) (g x)) -> agree (enc_all f l) (enc_all g l).
Proof. intros H. induction l as [|x l IH]; cbn [enc_all]; ag; first [apply H | exact IH]. Qed.
Lemma ag_cue c : agree (enc_cue Debug c) (enc_cue Release c). Proof. unfold enc_cue. ag. Qed.
Lemma ag_comment s : agree (enc_comment Debug s) (enc_comment Release s). Proof. unfold enc_comment. ag. Qed.
#[export] Hint Resolve ag_cue ag_comment : ag.
Lemma ag_ecue c : agree (enc_ecue Debug c) (enc_ecue Release c). Proof. unfold enc_ecue. ag. Qed.
#[export] Hint Resolve ag_ecue : ag.
Lemma ag_all_fields fs l : agree (enc_all (enc_fields Debug fs) l) (enc_all (enc_fields Release fs) l). Proof. apply ag_enc_all. intro. ag. Qed.
Lemma ag_all_cues l : agree (enc_all (enc_cue Debug) l) (enc_all (enc_cue Release) l). Proof. apply ag_enc_all. intro. ag. Qed.
Lemma ag_all_ecues l : agree (enc_all (enc_ecue Debug) l) (enc_all (enc_ecue Release) l). Proof. apply ag_enc_all. intro. ag. Qed.
#[export] Hint Resolve ag_all_fields ag_all_cues ag_all_ecues : ag.
Lemma ag_content c : agree (enc_content Debug c) (enc_content Release c).
Proof. unfold enc_content, enc_wave, enc_song, enc_encrypted, enc_song_data. cbv zeta. ag. Qed.
#[export] Hint Resolve ag_content : ag.
Lemma ag_section s : agree (enc_section Debug s) (enc_section Release s). Proof. unfold enc_section. ag. Qed.
Lemma ag_anlz a : agree (enc_anlz Debug a) (enc_anlz Release a). Proof. unfold enc_anlz. ag. apply ag_enc_all. intro. apply ag_section. Qed.

(** ** Databases: the pages kept in memory must agree, too *)
Definition agree_d {A} (x y : database * dres A) : Prop := snd x = DPanic \/ x = y.
Definition agree_o {A} (x y : database * option (dres A)) : Prop := snd x = Some DPanic \/ x = y.
Lemma ag_read_page d i : read_page Debug d i = DPanic \/ read_page Debug d i = read_page Release d i.
Proof.
  unfold read_page. destruct (ag_offset i (dh_page_size (db_header d))) as [-> | ->]; [now left|].
  destruct (page_offset Release i (dh_page_size (db_header d))) as [o | e |]; cbn [res_bind]; [| now right | now left].
  destruct (agp_page _ _ (dh_page_size (db_header d)) (db_kind d) agp_dstr (db_io d) o) as [-> | ->]; [now left | now right].
Qed.
Lemma ag_load_entry d pos i : agree_d (load_entry Debug d pos i) (load_entry Release d pos i).
Proof.
  unfold load_entry, agree_d. destruct (getN (db_pages d) pos) as [[p|]|]; [now right | | now right].
  destruct (ag_read_page d i) as [-> | ->]; [now left | now right].
Qed.
Lemma ag_load_page d i : agree_d (load_page Debug d i) (load_page Release d i).
Proof.
  unfold load_page. destruct (ag_wsub 64 i 1) as [-> | ->]; [now left|].
  destruct (wsub Release 64 i 1) as [pos | |]; [| now right | now right]. destruct (pos <? len (db_pages d)); [apply ag_load_entry | now right].
Qed.
Lemma ag_next d it : snd (iter_next Debug d it) = DPanic \/ iter_next Debug d it = iter_next Release d it.
Proof.
  unfold iter_next. destruct (it_next it) as [i|]; [|now right]. destruct (i <? it_off it); [now right|]. cbv zeta. destruct (it_len it <=? i - it_off it); [now right|].
  destruct (ag_load_entry d (it_base it + (i - it_off it)) i) as [E | ->]; [|now right].
  destruct (load_entry Debug d (it_base it + (i - it_off it)) i) as [d1 x]. cbn in E. subst x. now left.
Qed.
Lemma ag_collect_n n : forall d it, agree_o (collect_n Debug n d it) (collect_n Release n d it).
Proof.
  unfold agree_o. induction n as [|n IH]; intros d it; cbn [collect_n]; [now right|]. destruct (ag_next d it) as [E | ->].
  - destruct (iter_next Debug d it) as [[d1 it1] x]. cbn in E. subst x. now left.
  - destruct (iter_next Release d it) as [[d1 it1] [[x|] | e |]]; [| now right | now right | now left].
    destruct (IH d1 it1) as [E | ->]; [|now right]. destruct (collect_n Debug n d1 it1) as [d2 r]. cbn in E. subst r. now left.
Qed.
Lemma ag_collect d it : agree_o (collect Debug d it) (collect Release d it). Proof. apply ag_collect_n. Qed.
Lemma ag_rows_n k n : forall d it, agree_o (rows_n Debug k n d it) (rows_n Release k n d it).
Proof.
  unfold agree_o. induction n as [|n IH]; intros d it; cbn [rows_n]; [now right|]. destruct (ag_next d it) as [E | ->].
  - destruct (iter_next Debug d it) as [[d1 it1] x]. cbn in E. subst x. now left.
  - destruct (iter_next Release d it) as [[d1 it1] [[[i p]|] | e |]]; [| now right | now right | now left].
    destruct (rows_as k (rows_of_page p)); [| now right | now left].
    destruct (IH d1 it1) as [E | ->]; [|now right]. destruct (rows_n Debug k n d1 it1) as [d2 r]. cbn in E. subst r. now left.
Qed.
Lemma ag_rows k d : agree_o (iter_rows Debug k d) (iter_rows Release k d).
Proof. unfold iter_rows. destruct (iter_pages d (PT k)); [apply ag_rows_n | now right | now left]. Qed.
Lemma ag_wr_all l : forall fs gs, fs = map (lpage_write Debug l) gs -> forall s, agree (wr_all fs s) (wr_all (map (lpage_write Release l) gs) s).
Proof.
  intros fs gs ->. induction gs as [|g gs IH]; intros s; cbn [map wr_all]; [apply ag_refl|]. unfold wr_seq. ag.
  unfold lpage_write. destruct g; [apply ag_page | apply ag_refl].
Qed.
Lemma ag_flush d : flush Debug d = DPanic \/ flush Debug d = flush Release d.
Proof.
  unfold flush, db_write. cbv zeta.
  assert (forall s f, agree (wr_seq f (wr_all (map (lpage_write Debug (dh_page_size (db_header d))) (db_pages d))) s)
                            (wr_seq f (wr_all (map (lpage_write Release (dh_page_size (db_header d))) (db_pages d))) s)) as H.
  { intros s f. unfold wr_seq. ag. now apply ag_wr_all. }
  match goal with |- context [wr_seq ?f _ ?s] => destruct (H s f) as [-> | ->] end; [now left | now right].
Qed.

(** ** Commands *)
Lemma ag_get_playlists n d : get_playlists Debug n d = Some Crash \/ get_playlists Debug n d = get_playlists Release n d.
Proof. unfold get_playlists. destruct (ag_rows KPlaylistTreeNode d) as [-> | ->]; [now left | now right]. Qed.
Lemma ag_table_rows {A} k (f : row -> option A) d :
  table_rows Debug k f d = Crash \/ table_rows Debug k f d = table_rows Release k f d /\ iter_rows Debug k d = iter_rows Release k d.
Proof. unfold table_rows. destruct (ag_rows k d) as [-> | ->]; [now left | now right]. Qed.
Lemma ag_stream_n k n : forall d it, stream_n Debug k n d it = stream_n Release k n d it \/
  exists l, stream_n Debug k n d it = Some (l, DPanic) /\ match stream_n Release k n d it with Some (l', _) => exists m, l' = l ++ m | None => True end.
Proof.
  induction n as [|n IH]; intros d it; cbn [stream_n]; [now left|]. destruct (ag_next d it) as [E | ->].
  - destruct (iter_next Debug d it) as [[d1 it1] x]. cbn in E. subst x. right. exists []. split; [easy|]. match goal with |- match ?x with _ => _ end => destruct x as [[l' y]|] end; [now exists l' | easy].
  - destruct (iter_next Release d it) as [[d1 it1] [[[i p]|] | e |]]; [| now left | now left | now left].
    destruct (forallb (is_variant k) (rows_of_page p)); [| now left]. destruct (IH d1 it1) as [-> | (l & -> & H)]; [now left|]. right. exists (rows_of_page p ++ l). split; [easy|].
    destruct (stream_n Release k n d1 it1) as [[l' y]|]; [|easy]. destruct H as (m & ->). cbn [option_map fst]. exists m. now rewrite app_assoc.
Qed.
Lemma decode_prefix l m : (forall x, decode_rows l <> Done x) -> decode_rows (l ++ m) = decode_rows l.
Proof.
  induction l as [|r l IH]; cbn [decode_rows app]; intro H; [now destruct (H [])|]. destruct (track_of_row r) as [[i s]|]; [|easy]. destruct (dstr_into_string s) as [p|]; [|easy].
  rewrite IH; [easy|]. intros x E. rewrite E in H. now apply (H ((i, p) :: x)).
Qed.
Lemma ag_track_paths d : track_paths Debug d = Some Crash \/ track_paths Debug d = track_paths Release d.
Proof.
  assert (row_stream Debug KTrack d = row_stream Release KTrack d \/
    exists l, row_stream Debug KTrack d = Some (l, DPanic) /\ match row_stream Release KTrack d with Some (l', _) => exists m, l' = l ++ m | None => True end) as [E | (l & E & H)].
  { unfold row_stream. destruct (iter_pages d (PT KTrack)); [apply ag_stream_n | now left | now left]. }
  - right. unfold track_paths. now rewrite E.
  - destruct (stream_total Release KTrack d) as (l' & y' & E' & _). rewrite E' in H. destruct H as (m & ->).
    unfold track_paths. rewrite E, E'. pose proof (decode_prefix l m) as HP. destruct (decode_rows l) as [tr | e |]; [now left | | now left]. right. now rewrite HP.
Qed.
Lemma ag_export n d out canon : export Debug n d out canon = Some Crash \/ export Debug n d out canon = export Release n d out canon.
Proof.
  unfold export. destruct (ag_rows KPlaylistTreeNode d) as [E | E].
  - unfold get_playlists. rewrite E. now left.
  - unfold get_playlists. rewrite !E. destruct (match snd (iter_rows Release KPlaylistTreeNode d) with Some _ => _ | None => None end) as [[ts | e |]|];
      [| now right | now left | now right]. cbv zeta.
    destruct (ag_table_rows KPlaylistEntry pentry_of_row (fst (iter_rows Release KPlaylistTreeNode d))) as [-> | (-> & ->)]; [now left|].
    destruct (table_rows Release KPlaylistEntry pentry_of_row (fst (iter_rows Release KPlaylistTreeNode d))) as [es | e |]; [| now right | now left].
    match goal with |- context [track_paths Debug ?x] => destruct (ag_track_paths x) as [-> | ->] end; [now left | now right].
Qed.
Lemma ag_list n io : list_playlists Debug n io = Some Crash \/ list_playlists Debug n io = list_playlists Release n io.
Proof.
  unfold list_playlists. destruct (db_open io DbPlain) as [d | e |]; [| now right | now left]. cbv zeta.
  destruct (ag_table_rows KPlaylistTreeNode node_of_row d) as [-> | (-> & ->)]; [now left|].
  destruct (table_rows Release KPlaylistTreeNode node_of_row d) as [ns | e |]; [| now right | now left].
  match goal with |- context [table_rows Debug KArtist artist_of_row ?x] => destruct (ag_table_rows KArtist artist_of_row x) as [-> | (-> & ->)] end; [now left|].
  destruct (table_rows Release KArtist artist_of_row _) as [arts | e |]; [| now right | now left].
  match goal with |- context [table_rows Debug KTrack listed_track_of_row ?x] => destruct (ag_table_rows KTrack listed_track_of_row x) as [-> | (-> & ->)] end; [now left|].
  destruct (table_rows Release KTrack listed_track_of_row _) as [trs | e |]; [| now right | now left].
  match goal with |- context [table_rows Debug KPlaylistEntry pentry_of_row ?x] => destruct (ag_table_rows KPlaylistEntry pentry_of_row x) as [-> | (-> & _)] end;
    [now left | now right].
Qed.
(** What has been printed before a panic is the beginning of what the other build prints. *)
Definition cut_short (es : list event) (o : option (list event * dres unit)) : Prop := forall es' r, o = Some (es', r) -> exists more, es' = es ++ more.
Lemma ag_dump_pages n : forall d it,
  (exists es, snd (dump_pages Debug n d it) = Some (es, DPanic) /\ cut_short es (snd (dump_pages Release n d it))) \/ dump_pages Debug n d it = dump_pages Release n d it.
Proof.
  induction n as [|n IH]; intros d it; cbn [dump_pages]; [now right|]. destruct (ag_next d it) as [E | ->].
  - left. exists []. destruct (iter_next Debug d it) as [[d1 it1] x]. cbn in E. subst x. split; [easy|]. intros es r _. now exists es.
  - destruct (iter_next Release d it) as [[d1 it1] [[[i p]|] | e |]]; [| now right | now right | now right].
    destruct (dump_page p) as [es []]; [now right|].
    destruct (IH d1 it1) as [(es' & E & F) | ->]; [|now right]. left. exists (es ++ es').
    destruct (dump_pages Debug n d1 it1) as [d2 r]. cbn [snd] in E. subst r. split; [easy|].
    destruct (dump_pages Release n d1 it1) as [d3 [[es2 r2]|]]; cbn [snd] in F |- *; [|easy].
    intros es3 r3 H. injection H as <- <-. destruct (F es2 r2 eq_refl) as [more ->]. exists more. now rewrite app_assoc.
Qed.
Lemma ag_dump_table d i :
  (exists es, snd (dump_table Debug d i) = Some (es, DPanic) /\ cut_short es (snd (dump_table Release d i))) \/ dump_table Debug d i = dump_table Release d i.
Proof. unfold dump_table. destruct (iter_pages_for_table d i); [apply ag_dump_pages | now right | now right]. Qed.
Definition cut_short2 (es : list event) (o : option (list event * bool)) : Prop := forall es' r, o = Some (es', r) -> exists more, es' = es ++ more.
Lemma ag_dump_tables u ts : forall d i,
  (exists es, dump_tables Debug u d i ts = Some (es, true) /\ cut_short2 es (dump_tables Release u d i ts)) \/ dump_tables Debug u d i ts = dump_tables Release u d i ts.
Proof.
  induction ts as [|t ts IH]; intros d i; cbn [dump_tables]; [now right|]. cbv zeta. destruct (is_unknown (tb_type t) && negb u).
  - destruct (IH d (i + 1)) as [(es & E & F) | ->]; [|now right]. rewrite E. left. exists (EvTable i (tb_type t) :: EvSkip :: es). split; [easy|].
    destruct (dump_tables Release u d (i + 1) ts) as [[es2 r2]|]; [|easy]. intros es3 r3 H. injection H as <- <-. destruct (F es2 r2 eq_refl) as [more ->]. now exists more.
  - destruct (ag_dump_table d i) as [(es & E & F) | ->].
    + destruct (dump_table Debug d i) as [d1 r]. cbn [snd] in E. subst r. left. exists (EvTable i (tb_type t) :: es). split; [easy|].
      destruct (dump_table Release d i) as [d2 [[es2 r2]|]]; [|easy]. cbn [snd] in F. destruct (F es2 r2 eq_refl) as [more ->].
      destruct r2; [| |]; [destruct (dump_tables Release u d2 (i + 1) ts) as [[es3 r3]|]; [|easy] | destruct (dump_tables Release u d2 (i + 1) ts) as [[es3 r3]|]; [|easy] |];
        intros es4 r4 H; injection H as <- <-; [exists (more ++ [] ++ es3) | exists (more ++ [EvError i e] ++ es3) | exists more]; cbn [app]; now rewrite <- ?app_assoc.
    + destruct (dump_table Release d i) as [d1 [[es [[] | e |]]|]]; [| | now right | now right];
        (destruct (IH d1 (i + 1)) as [(es' & E & F) | ->]; [|now right]); rewrite E; left;
        [exists (EvTable i (tb_type t) :: es ++ [] ++ es') | exists (EvTable i (tb_type t) :: es ++ [EvError i e] ++ es')]; (split; [easy|]);
        (destruct (dump_tables Release u d1 (i + 1) ts) as [[es2 r2]|]; [|easy]); intros es3 r3 H; injection H as <- <-; destruct (F es2 r2 eq_refl) as [more ->];
        exists more; cbn [app]; now rewrite <- ?app_assoc.
Qed.
Lemma ag_dump io k u :
  (exists es, dump_pdb Debug io k u = Some (es, DPanic) /\ cut_short es (dump_pdb Release io k u)) \/ dump_pdb Debug io k u = dump_pdb Release io k u.
Proof.
  unfold dump_pdb. destruct (db_open io k) as [d | e |]; [| now right | now right].
  destruct (ag_dump_tables u (dh_tables (db_header d)) d 0) as [(es & E & F) | ->]; [|now right]. rewrite E. left. exists (EvHeader (db_header d) :: es). split; [easy|].
  destruct (dump_tables Release u d 0 (dh_tables (db_header d))) as [[es2 r2]|]; [|easy]. intros es3 r3 H. injection H as <- <-. destruct (F es2 r2 eq_refl) as [more ->]. now exists more.
Qed.

(** ** Programs: what runs to its end with checks does the same without *)
Lemma ag_assign_n k f n : forall i d it d1, assign_n Debug k f n i d it = (d1, Some (DOk tt)) -> assign_n Release k f n i d it = (d1, Some (DOk tt)).
Proof.
  induction n as [|n IH]; intros i d it d1; cbn [assign_n]; [easy|]. destruct (ag_next d it) as [E | ->]; [now destruct (iter_next Debug d it) as [[? ?] ?]; cbn in E; subst|].
  destruct (iter_next Release d it) as [[d2 it2] [[[j p]|] | e |]]; try easy. destruct (forallb _ _); [|easy]. apply IH.
Qed.
Lemma ag_assign_all k f d d1 : assign_all Debug k f d = (d1, Some (DOk tt)) -> assign_all Release k f d = (d1, Some (DOk tt)).
Proof. unfold assign_all. destruct (iter_pages d (PT k)); [apply ag_assign_n | easy | easy]. Qed.
Lemma ag_load_ok d i d1 p : load_page Debug d i = (d1, DOk p) -> load_page Release d i = (d1, DOk p).
Proof. intros H. destruct (ag_load_page d i) as [E | E]; [now rewrite H in E | now rewrite <- E]. Qed.
Lemma ag_run_ok l p q : run Debug l p = Ok q -> run Release l p = Ok q.
Proof. intros H. destruct (ag_run l p) as [E | E]; [now rewrite H in E | now rewrite <- E]. Qed.
Lemma ag_delete i p q : delete_row Debug i p = Ok q -> delete_row Release i p = Ok q.
Proof.
  unfold delete_row. destruct (pg_content p) as [c|c]; [|easy]. destruct (getN (dc_rows c) i) as [[o r]|]; [|easy]. destruct (ag_wsub 16 (c_valid (ph_counts (pg_header p))) 1) as [-> | ->]; easy.
Qed.
Lemma ag_flush_ok d d1 : flush Debug d = DOk d1 -> flush Release d = DOk d1.
Proof. intros H. destruct (ag_flush d) as [E | E]; [now rewrite H in E | now rewrite <- E]. Qed.
Lemma ag_edits d es d1 : edits Debug d es d1 -> edits Release d es d1.
Proof. induction 1 as [|d d1 j p ops p' es d2 H1 H2 _ IH]; [apply edits_nil|]. apply (edits_cons _ d d1 j p ops p'); [now apply ag_load_ok | now apply ag_run_ok | exact IH]. Qed.
Lemma ag_acts d l d1 : acts Debug d l d1 -> acts Release d l d1.
Proof.
  induction 1 as [|d a d1 l d2 H _ IH]; [apply acts_nil|]. apply (acts_cons _ d a d1); [|exact IH].
  destruct H as [j ops d1 p p' H1 H2 | j f d1 p H | k f d1 H | j i d1 p p' H1 H2 | d1 H].
  - apply (does_insert _ _ _ _ _ p); [now apply ag_load_ok | now apply ag_run_ok].
  - apply (does_assign _ _ _ _ _ p). now apply ag_load_ok.
  - apply does_all. now apply ag_assign_all.
  - apply (does_delete _ _ _ _ _ p); [now apply ag_load_ok | now apply ag_delete].
  - apply does_save. now apply ag_flush_ok.
Qed.
Lemma ag_tasks d l d1 : tasks Debug d l d1 -> tasks Release d l d1.
Proof.
  induction 1 as [|d a d1 l d2 H _ IH]; [apply tasks_nil|]. apply (tasks_cons _ d a d1); [|exact IH].
  destruct H as [P l0 d1 H | j n t d1 p H | f].
  - apply performs_acts. now apply ag_acts.
  - apply (performs_label _ _ _ _ _ _ p). now apply ag_load_ok.
  - apply performs_header.
Qed.
Lemma ag_jobs k io ls io' : jobs Debug k io ls io' -> jobs Release k io ls io'.
Proof.
  induction 1 as [|io l io1 ls io2 (d & d1 & d2 & H1 & H2 & H3 & H4) _ IH]; [apply jobs_nil|]. apply (jobs_cons _ _ io l io1); [|exact IH].
  exists d, d1, d2. split; [exact H1|]. split; [now apply ag_tasks|]. split; [now apply ag_flush_ok | exact H4].
Qed.
Lemma ag_sessions k io ess io' : sessions Debug k io ess io' -> sessions Release k io ess io'.
Proof.
  induction 1 as [|io l io1 ls io2 (d & d1 & d2 & H1 & H2 & H3 & H4) _ IH]; [apply sessions_nil|]. apply (sessions_cons _ _ io l io1); [|exact IH].
  exists d, d1, d2. split; [exact H1|]. split; [now apply ag_edits|]. split; [now apply ag_flush_ok | exact H4].
Qed.
Lemma ag_programs k io ls io' : programs Debug k io ls io' -> programs Release k io ls io'.
Proof.
  induction 1 as [|io l io1 ls io2 (d & d1 & d2 & H1 & H2 & H3 & H4) _ IH]; [apply programs_nil|]. apply (programs_cons _ _ io l io1); [|exact IH].
  exists d, d1, d2. split; [exact H1|]. split; [now apply ag_acts|]. split; [now apply ag_flush_ok | exact H4].
Qed.
