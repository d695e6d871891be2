(** * The XML format; src/xml.rs

    An element is its name, its attributes in order and its child elements in order; attribute values are lists of code points.  The text form
    of elements (quick-xml's reader and writer, escapes, blank text between elements) is not modelled, and there is no other text.
    quick-xml gives the fields of a struct to serde as follows: a field whose name begins with '@' is an attribute, other fields are child
    elements of that name, a [Vec] a run of child elements.  An attribute that is [None] is written with an empty value.  On reading, a map
    has first the attributes in order, then the child elements, a run of neighbours with the same name being one list.  An attribute with
    an empty value is present. *)
From Coq Require Import NArith ZArith List Bool Lia String Ascii.
From Coq Require Import Decimal DecimalN DecimalZ.
Import ListNotations.
Local Close Scope string_scope.
Open Scope N_scope.

Definition text := list N.
Inductive elem := El (tag : string) (attrs : list (string * text)) (children : list elem).
Definition el_tag (e : elem) : string := match e with El t _ _ => t end.
Definition el_attrs (e : elem) : list (string * text) := match e with El _ a _ => a end.
Definition el_children (e : elem) : list elem := match e with El _ _ c => c end.

(** ** Numbers as text: [Display] and [FromStr] of Rust integers *)
Fixpoint show_uint (u : uint) : text :=
  match u with
  | Nil => [] | D0 u => 48 :: show_uint u | D1 u => 49 :: show_uint u | D2 u => 50 :: show_uint u | D3 u => 51 :: show_uint u | D4 u => 52 :: show_uint u
  | D5 u => 53 :: show_uint u | D6 u => 54 :: show_uint u | D7 u => 55 :: show_uint u | D8 u => 56 :: show_uint u | D9 u => 57 :: show_uint u
  end.
Fixpoint digits (t : text) : option uint :=
  match t with
  | [] => Some Nil
  | c :: t =>
    match digits t with
    | None => None
    | Some u =>
      match c with
      | 48 => Some (D0 u) | 49 => Some (D1 u) | 50 => Some (D2 u) | 51 => Some (D3 u) | 52 => Some (D4 u)
      | 53 => Some (D5 u) | 54 => Some (D6 u) | 55 => Some (D7 u) | 56 => Some (D8 u) | 57 => Some (D9 u)
      | _ => None
      end
    end
  end.
(** At least one digit. *)
Definition magnitude (t : text) : option N := match t with [] => None | _ => option_map N.of_uint (digits t) end.
Definition show_N (n : N) : text := show_uint (N.to_uint n).
Definition show_Z (z : Z) : text := if (z <? 0)%Z then 45 :: show_N (Z.to_N (- z)) else show_N (Z.to_N z).
(** [usize::from_str] on a 64-bit machine: an optional '+' and digits *)
Definition read_usize (t : text) : option N :=
  match magnitude (match t with 43 :: r => r | _ => t end) with
  | Some n => if n <? 2 ^ 64 then Some n else None
  | None => None
  end.
(** [i32::from_str], [i64::from_str] *)
Definition read_int (bits : Z) (t : text) : option Z :=
  match match t with
        | 45 :: r => option_map (fun n => (- Z.of_N n)%Z) (magnitude r)
        | 43 :: r => option_map Z.of_N (magnitude r)
        | _ => option_map Z.of_N (magnitude t)
        end with
  | Some z => if ((- 2 ^ (bits - 1) <=? z) && (z <? 2 ^ (bits - 1)))%Z then Some z else None
  | None => None
  end.

(** ** Maps *)

(** Errors: those of the visitor of this crate, and others (of quick-xml and derived code). *)
Inductive xerr := XUnknownField (k : string) | XUnknownVariant (t : text) | XMissing (k : string) | XOther.
Inductive xres (A : Type) := XOk (a : A) | XErr (e : xerr).
Arguments XOk {A} a. Arguments XErr {A} e.

(** What a map reader gets: attributes, and runs of child elements of one name. *)
Inductive item (C : Type) := IAttr (k : string) (v : text) | IRun (tag : string) (cs : list C).
Arguments IAttr {C} k v. Arguments IRun {C} tag cs.
Fixpoint runs {C} (tag : C -> string) (cs : list C) : list (string * list C) :=
  match cs with
  | [] => []
  | c :: cs =>
    match runs tag cs with
    | (t, l) :: r => if String.eqb (tag c) t then (t, c :: l) :: r else (tag c, [c]) :: (t, l) :: r
    | [] => [(tag c, [c])]
    end
  end.
Definition items {C} (tag : C -> string) (attrs : list (string * text)) (cs : list C) : list (item C) :=
  map (fun a => IAttr (fst a) (snd a)) attrs ++ map (fun r => IRun (fst r) (snd r)) (runs tag cs).

(** A required [Vec] field of a derived [Deserialize]: the run of this name.  None: missing field.  Two: duplicate field.  Other
    attributes and elements are ignored. *)
Fixpoint the_runs {C} (tag : string) (l : list (item C)) : list (list C) :=
  match l with
  | [] => []
  | IAttr _ _ :: l => the_runs tag l
  | IRun t cs :: l => if String.eqb t tag then cs :: the_runs tag l else the_runs tag l
  end.
Definition vec_field {C} (tag : string) (l : list (item C)) : xres (list C) :=
  match the_runs tag l with
  | [] => XErr (XMissing tag)
  | [cs] => XOk cs
  | _ => XErr XOther
  end.
Fixpoint xall {A B} (f : A -> xres B) (l : list A) : xres (list B) :=
  match l with
  | [] => XOk []
  | x :: l => match f x with XErr e => XErr e | XOk y => match xall f l with XOk ys => XOk (y :: ys) | XErr e => XErr e end end
  end.
(** A required attribute of a derived [Deserialize] *)
Fixpoint attr (k : string) (attrs : list (string * text)) : option text :=
  match attrs with
  | [] => None
  | (k', v) :: l => if String.eqb k' k then Some v else attr k l
  end.

(** ** Playlist nodes *)

(** [PlaylistGenericNode], [PlaylistFolderNode], [PlaylistPlaylistNode]; xml.rs:309-318, 427-439, 471-490.  A track is its key. *)
Inductive xnode := XFolder (name : text) (nodes : list xnode) | XPlaylist (name keytype : text) (tracks : list Z).

(** [PlaylistTrack], xml.rs:527-534 *)
Definition write_entry (key : Z) : elem := El "TRACK" [("Key"%string, show_Z key)] [].
Definition read_entry (e : elem) : xres Z :=
  match attr "Key" (el_attrs e) with
  | None => XErr (XMissing "@Key")
  | Some t => match read_int 32 t with Some z => XOk z | None => XErr XOther end
  end.

(** [Serialize], xml.rs:309-318 (the tag comes first), 441-468 and 492-525 *)
Fixpoint write_node (t : xnode) : elem :=
  match t with
  | XFolder name nodes =>
    El "NODE" [("Type"%string, [48]); ("Name"%string, name); ("Count"%string, show_N (N.of_nat (List.length nodes)))] (map write_node nodes)
  | XPlaylist name keytype tracks =>
    El "NODE" [("Type"%string, [49]); ("Name"%string, name); ("Entries"%string, show_N (N.of_nat (List.length tracks))); ("KeyType"%string, keytype)]
       (map write_entry tracks)
  end.

(** The variables of [visit_map], xml.rs:339-343 *)
Record vars := mk_vars { v_type : option text; v_name : option text; v_count : option N; v_key_type : option text; v_entries : option N }.
Definition no_vars : vars := mk_vars None None None None None.
(** One key and its value, xml.rs:346-359 *)
Definition set_var (k : string) (v : text) (s : vars) : xres vars :=
  if String.eqb k "Name" then XOk (mk_vars (v_type s) (Some v) (v_count s) (v_key_type s) (v_entries s))
  else if String.eqb k "Type" then XOk (mk_vars (Some v) (v_name s) (v_count s) (v_key_type s) (v_entries s))
  else if String.eqb k "Count" then
    match read_usize v with Some n => XOk (mk_vars (v_type s) (v_name s) (Some n) (v_key_type s) (v_entries s)) | None => XErr XOther end
  else if String.eqb k "KeyType" then XOk (mk_vars (v_type s) (v_name s) (v_count s) (Some v) (v_entries s))
  else if String.eqb k "Entries" then
    match read_usize v with Some n => XOk (mk_vars (v_type s) (v_name s) (v_count s) (v_key_type s) (Some n)) | None => XErr XOther end
  else XErr (XUnknownField ("@" ++ k)).
(** After the loop, xml.rs:404-421 *)
Definition text_eqb (a b : text) : bool := if list_eq_dec N.eq_dec a b then true else false.
Definition not_complete (s : vars) : xerr :=
  match v_type s with
  | Some t =>
    if text_eqb t [48] then match v_name s with None => XMissing "@Name" | Some _ => XMissing "@Count" end
    else if text_eqb t [49] then
      match v_name s with
      | None => XMissing "@Name"
      | Some _ => match v_entries s with None => XMissing "@Entries" | Some _ => XMissing "@KeyType" end
      end
    else XMissing "@Type"
  | None => XMissing "@Type"
  end.
(** [visit_map], xml.rs:335-422; a child is an element with the result of reading it as a node. *)
Definition child : Type := elem * xres xnode.
Fixpoint visit (l : list (item child)) (s : vars) : xres xnode :=
  match l with
  | [] => XErr (not_complete s)
  | IRun tag _ :: _ => XErr (XUnknownField tag)
  | IAttr k v :: l =>
    match set_var k v s with
    | XErr e => XErr e
    | XOk s =>
      match v_type s with
      | None => visit l s
      | Some t =>
        if text_eqb t [48] then
          match v_name s, v_count s with
          | Some n, Some _ =>
            match vec_field "NODE" l with
            | XErr e => XErr e
            | XOk cs => match xall snd cs with XOk nodes => XOk (XFolder n nodes) | XErr e => XErr e end
            end
          | _, _ => visit l s
          end
        else if text_eqb t [49] then
          match v_name s, v_entries s, v_key_type s with
          | Some n, Some _, Some kt =>
            match vec_field "TRACK" l with
            | XErr e => XErr e
            | XOk cs => match xall (fun c => read_entry (fst c)) cs with XOk tracks => XOk (XPlaylist n kt tracks) | XErr e => XErr e end
            end
          | _, _, _ => visit l s
          end
        else XErr (XUnknownVariant t)
      end
    end
  end.
Definition child_tag (c : child) : string := el_tag (fst c).
Fixpoint read_node (e : elem) : xres xnode :=
  match e with
  | El _ attrs cs => visit (items child_tag attrs (map (fun c => (c, read_node c)) cs)) no_vars
  end.

(** [Playlists], xml.rs:300-306, with the root, a [PlaylistFolderNode]; its [Deserialize] is derived, xml.rs:427-439.  The root is written
    without type. *)
Definition write_root (name : text) (nodes : list xnode) : elem :=
  El "NODE" [("Name"%string, name); ("Count"%string, show_N (N.of_nat (List.length nodes)))] (map write_node nodes).
Definition read_root (e : elem) : xres (text * list xnode) :=
  match attr "Name" (el_attrs e) with
  | None => XErr (XMissing "@Name")
  | Some name =>
    match vec_field "NODE" (items child_tag (el_attrs e) (map (fun c => (c, read_node c)) (el_children e))) with
    | XErr e => XErr e
    | XOk cs => match xall snd cs with XOk nodes => XOk (name, nodes) | XErr e => XErr e end
    end
  end.

(** ** Documents *)

(** Types of attributes; fields that are optional are written as empty if they are [None], or skipped ([skip_serializing_if]). *)
Inductive akind := AStr | AI32 | AI64 | AF64.
Inductive presence := Req | Opt | OptSkip.
Definition aschema := list (string * akind * presence).

(** [Product], xml.rs:46-60 *)
Definition product_attrs : aschema := [("Name"%string, AStr, Req); ("Version"%string, AStr, Req); ("Company"%string, AStr, Req)].
(** [Tempo], xml.rs:243-266 *)
Definition tempo_attrs : aschema := [("Inizio"%string, AF64, Req); ("Bpm"%string, AF64, Req); ("Metro"%string, AStr, Req); ("Battito"%string, AI32, Req)].
(** [PositionMark], xml.rs:268-297 *)
Definition mark_attrs : aschema :=
  [("Name"%string, AStr, Req); ("Type"%string, AI32, Req); ("Start"%string, AF64, Req); ("End"%string, AF64, OptSkip); ("Num"%string, AI32, Req)].
(** [Track], xml.rs:75-217, without the two lists *)
Definition track_attrs : aschema :=
  [("TrackID"%string, AI32, Req); ("Name"%string, AStr, Opt); ("Artist"%string, AStr, Opt); ("Composer"%string, AStr, Opt); ("Album"%string, AStr, Opt);
   ("Grouping"%string, AStr, Opt); ("Genre"%string, AStr, Opt); ("Kind"%string, AStr, Opt); ("Size"%string, AI64, Opt); ("TotalTime"%string, AF64, Opt);
   ("DiscNumber"%string, AI32, Opt); ("TrackNumber"%string, AI32, Opt); ("Year"%string, AI32, Opt); ("AverageBpm"%string, AF64, Opt);
   ("DateModified"%string, AStr, OptSkip); ("DateAdded"%string, AStr, OptSkip); ("BitRate"%string, AI32, Opt); ("SampleRate"%string, AF64, Opt);
   ("Comments"%string, AStr, Opt); ("PlayCount"%string, AI32, Opt); ("LastPlayed"%string, AStr, OptSkip); ("Rating"%string, AI32, Opt);
   ("Location"%string, AStr, Req); ("Remixer"%string, AStr, Opt); ("Tonality"%string, AStr, Opt); ("Label"%string, AStr, Opt); ("Mix"%string, AStr, Opt);
   ("Colour"%string, AStr, OptSkip)].

Section Documents.
  (** Floating point numbers are left abstract: a type with a way to show and to read values. *)
  Context (F : Type) (showF : F -> text) (readF : text -> option F).

  Inductive xval := XS (t : text) | XI (z : Z) | XF (f : F) | XNone.
  Definition show_val (v : xval) : text := match v with XS t => t | XI z => show_Z z | XF f => showF f | XNone => [] end.
  Definition read_val (k : akind) (t : text) : option xval :=
    match k with
    | AStr => Some (XS t)
    | AI32 => option_map XI (read_int 32 t)
    | AI64 => option_map XI (read_int 64 t)
    | AF64 => option_map XF (readF t)
    end.
  Definition skipped (p : presence) (v : xval) : bool := match p, v with OptSkip, XNone => true | _, _ => false end.
  Fixpoint write_attrs (s : aschema) (vs : list xval) : list (string * text) :=
    match s, vs with
    | (name, _, p) :: s, v :: vs => (if skipped p v then [] else [(name, show_val v)]) ++ write_attrs s vs
    | _, _ => []
    end.
  Definition read_attr (f : string * akind * presence) (attrs : list (string * text)) : xres xval :=
    let '(name, k, p) := f in
    match attr name attrs with
    | Some t => match read_val k t with Some v => XOk v | None => XErr XOther end
    | None => match p with Req => XErr (XMissing ("@" ++ name)) | _ => XOk XNone end
    end.
  Definition read_attrs (s : aschema) (attrs : list (string * text)) : xres (list xval) := xall (fun f => read_attr f attrs) s.

  Record track := mk_track { t_attrs : list xval; t_tempos : list (list xval); t_marks : list (list xval) }.
  Record document := mk_doc { d_version : text; d_product : list xval; d_entries : Z; d_tracks : list track; d_root : text; d_nodes : list xnode }.

  Definition xbind {A B} (r : xres A) (f : A -> xres B) : xres B := match r with XOk a => f a | XErr e => XErr e end.
  (** Fields of derived [Deserialize]: a list with a default, and a single struct (more than one element: duplicate field). *)
  Definition default_field (tag : string) (l : list (item elem)) : xres (list elem) :=
    match the_runs tag l with [] => XOk [] | [cs] => XOk cs | _ => XErr XOther end.
  Definition one_field (tag : string) (l : list (item elem)) : xres elem :=
    match the_runs tag l with [] => XErr (XMissing tag) | [[c]] => XOk c | _ => XErr XOther end.
  Definition elem_items (e : elem) : list (item elem) := items el_tag (el_attrs e) (el_children e).

  Definition write_tempo (vs : list xval) : elem := El "TEMPO" (write_attrs tempo_attrs vs) [].
  Definition write_mark (vs : list xval) : elem := El "POSITION_MARK" (write_attrs mark_attrs vs) [].
  Definition write_track (t : track) : elem :=
    El "TRACK" (write_attrs track_attrs (t_attrs t)) (map write_tempo (t_tempos t) ++ map write_mark (t_marks t)).
  Definition read_track (e : elem) : xres track :=
    xbind (read_attrs track_attrs (el_attrs e)) (fun a =>
    xbind (xbind (default_field "TEMPO" (elem_items e)) (xall (fun c => read_attrs tempo_attrs (el_attrs c)))) (fun ts =>
    xbind (xbind (default_field "POSITION_MARK" (elem_items e)) (xall (fun c => read_attrs mark_attrs (el_attrs c)))) (fun ms =>
    XOk (mk_track a ts ms)))).

  (** [Document] and [Collection], xml.rs:22-43 and 62-73 *)
  Definition write_doc (d : document) : elem :=
    El "DJ_PLAYLISTS" [("Version"%string, d_version d)]
      [El "PRODUCT" (write_attrs product_attrs (d_product d)) [];
       El "COLLECTION" [("Entries"%string, show_Z (d_entries d))] (map write_track (d_tracks d));
       El "PLAYLISTS" [] [write_root (d_root d) (d_nodes d)]].
  Definition read_doc (e : elem) : xres document :=
    xbind (read_attrs [("Version"%string, AStr, Req)] (el_attrs e)) (fun version =>
    xbind (xbind (one_field "PRODUCT" (elem_items e)) (fun c => read_attrs product_attrs (el_attrs c))) (fun product =>
    xbind (one_field "COLLECTION" (elem_items e)) (fun col =>
    xbind (read_attrs [("Entries"%string, AI32, Req)] (el_attrs col)) (fun entries =>
    xbind (xbind (vec_field "TRACK" (elem_items col)) (xall read_track)) (fun tracks =>
    xbind (xbind (one_field "PLAYLISTS" (elem_items e)) (fun c => xbind (one_field "NODE" (elem_items c)) read_root)) (fun root =>
    match version, entries with
    | [XS v], [XI n] => XOk (mk_doc v product n tracks (fst root) (snd root))
    | _, _ => XErr XOther
    end)))))).
End Documents.
