(** * Dumping a database: src/main.rs:278-321

    The output is a list of events, one for each line (or group of lines) that is printed, with the values in it.  [Debug] of pages and rows is
    modelled as far as it can panic; a line whose printing panics is left out, although its beginning may have been printed. *)
From Coq Require Import NArith List Bool.
From Verif Require Import Base Str Schema Oa Rows Page Db.
Import ListNotations.
Open Scope N_scope.

Inductive event :=
| EvHeader (h : dbhdr)                 (* {:#?} of the header, 282 *)
| EvTable (i : N) (t : ptype)          (* 306 *)
| EvSkip                               (* 308-310 *)
| EvPage (p : page)                    (* 287 *)
| EvRow (r : row)                      (* 291 *)
| EvIndex (c : icontent)               (* 295 *)
| EvEntry (e : N)                      (* 297 *)
| EvError (i : N) (e : dberr).         (* 314, on stderr *)

(** Derived [Debug] of rows and pages goes through all fields; src/pdb/mod.rs:300-315 and src/pdb/string.rs:139-172 may panic. *)
Definition fval_debug_panics (v : fval) : bool := match v with VStr s => dstr_display_panics s | _ => false end.
Definition row_debug_panics (r : row) : bool :=
  match r with
  | RRow _ vs c => existsb fval_debug_panics vs || match c with Some o => existsb dstr_display_panics (oa_items o) | None => false end
  | RUnknown => false
  end.
Definition icontent_debug_panics (c : icontent) : bool := existsb index_entry_debug_panics (ic_entries c).
Definition page_debug_panics (p : page) : bool :=
  match pg_content p with PData c => existsb (fun x => row_debug_panics (snd x)) (dc_rows c) | PIndex c => icontent_debug_panics c end.

(** A sequence of [println]: what is printed, and whether there was a panic. *)
Definition output := (list event * bool)%type.
Definition say (panics : bool) (e : event) : output := if panics then ([], true) else ([e], false).
Definition and_then (x y : output) : output := if snd x then x else (fst x ++ fst y, snd y).
Fixpoint say_all (l : list output) : output := match l with [] => ([], false) | x :: l => and_then x (say_all l) end.

(** The body of the loop, 287-300 *)
Definition dump_page (p : page) : output :=
  and_then (say (page_debug_panics p) (EvPage p))
    match pg_content p with
    | PData c => say_all (map (fun x => say (row_debug_panics (snd x)) (EvRow (snd x))) (dc_rows c))
    | PIndex c => and_then (say (icontent_debug_panics c) (EvIndex c)) (say_all (map (fun e => say (index_entry_debug_panics e) (EvEntry e)) (ic_entries c)))
    end.

(** [dump_table], 284-302: what is printed and the result.  [None]: not finished within the given number of calls of [next]. *)
Fixpoint dump_pages (b : build) (fuel : nat) (d : database) (it : piter) : database * option (list event * dres unit) :=
  match fuel with
  | O => (d, None)
  | S n =>
    match iter_next b d it with
    | (d1, _, DOk None) => (d1, Some ([], DOk tt))
    | (d1, it1, DOk (Some (_, p))) =>
      match dump_page p with
      | (es, true) => (d1, Some (es, DPanic))
      | (es, false) => let (d2, r) := dump_pages b n d1 it1 in (d2, match r with Some (es', x) => Some (es ++ es', x) | None => None end)
      end
    | (d1, _, DErr e) => (d1, Some ([], DErr e))
    | (d1, _, DPanic) => (d1, Some ([], DPanic))
    end
  end.
Definition dump_table (b : build) (d : database) (i : N) : database * option (list event * dres unit) :=
  match iter_pages_for_table d i with
  | DOk it => dump_pages b (S (S (length (db_pages d)))) d it
  | DErr e => (d, Some ([], DErr e))
  | DPanic => (d, Some ([], DPanic))
  end.

(** The loop over the tables, 304-316; [true]: there was a panic *)
Definition is_unknown (t : ptype) : bool := match t with PTUnknown _ => true | PT _ => false end.
Fixpoint dump_tables (b : build) (unknown : bool) (d : database) (i : N) (ts : list table) : option output :=
  match ts with
  | [] => Some ([], false)
  | t :: ts =>
    let head := EvTable i (tb_type t) in
    if is_unknown (tb_type t) && negb unknown then
      match dump_tables b unknown d (i + 1) ts with Some (es, x) => Some (head :: EvSkip :: es, x) | None => None end
    else
      match dump_table b d i with
      | (d1, Some (es, DPanic)) => Some (head :: es, true)
      | (d1, Some (es, r)) =>
        let msg := match r with DErr e => [EvError i e] | _ => [] end in
        match dump_tables b unknown d1 (i + 1) ts with Some (es', x) => Some (head :: es ++ msg ++ es', x) | None => None end
      | (_, None) => None
      end
  end.
(** [dump_pdb] for a file with these bytes: what is printed and the result of the command. *)
Definition dump_pdb (b : build) (io : list N) (k : dbtype) (unknown : bool) : option (list event * dres unit) :=
  match db_open io k with
  | DOk d =>
    match dump_tables b unknown d 0 (dh_tables (db_header d)) with
    | Some (es, x) => Some (EvHeader (db_header d) :: es, if x then DPanic else DOk tt)
    | None => None
    end
  | DErr e => Some ([], DErr e)
  | DPanic => Some ([], DPanic)
  end.
