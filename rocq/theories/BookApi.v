(** Model of opening a workbook stream and of the sheet access methods of Book,
    /repo/xlrd/book.py:59-124, 434-550, 598-653 and 696-731, for verbosity 0.

    Worksheets from BIFF5 on are read by SheetModel.v.  Reading an older worksheet is the
    arbitrary function [old].  [str.lower], the codecs, the numbers and their operations
    are arbitrary.  File access is left out: the model starts from the contents. *)
From Verif Require Import Base Text Framing GridModel SheetObjects SheetModel FormatModel FormulaModel CompDoc BookModel.

Section Api.
Context {N : Type}.
Variable codec : list Z -> list Z -> result (list Z).
Variable ops : numops N.
Variable lower : list Z -> list Z.
Variable num8 : list Z -> N.              (* unpack('<d', eight bytes) *)
Variable rk : list Z -> result N.         (* unpack_RK *)
Variable ragged : bool.                   (* ragged_rows *)

(** A Sheet object: the attributes set from the book and what was read. *)
Record loaded : Type := mk_loaded {
  ls_number : Z;
  ls_name : list Z;
  ls_visibility : Z;
  ls_sheet : sheet N }.
Notation book := (book N loaded).

Variable old : book -> list Z -> Z -> list Z -> Z -> result (shared * loaded).

(** sheet.py:320-401: what a worksheet sees of the book.  From BIFF5 on an encoding has
    been set when text needs one (book.py:1255-1256). *)
Definition config_of (b : book) : config N :=
  mk_config (bk_bv b) (b_fmt (bk_fmt b)) ragged (bk_sst b) (bk_rich b) (dget Z.eqb (b_xftype (bk_fmt b)))
    (unicode codec (en_encoding (bk_enc b))) num8 rk (nearest_colour_index (b_colours (bk_fmt b))).

(** sheet.py:320-401 and 789-1508 *)
Definition load (b : book) (mem : list Z) (position : Z) (name : list Z) (number : Z) : result (shared * loaded) :=
  if bk_bv b <=? 45 then old b mem position name number
  else
    do visibility <- py_index (sl_visibility (bk_sheets b)) number;
    let g := bk_shared b in
    do sh <- sheet_read (config_of b) (g_countries g) (records_of (S (2 * List.length mem)) mem position);
    Ok (mk_shared (g_enc g) (g_fmt g) (sh_countries sh) (g_datemode g), mk_loaded number name visibility sh).

(** book.py:696-717, with the file still there *)
Definition get_sheet (b : book) (mem : list Z) (sh_number : Z) : result (book * loaded) :=
  do position <- py_index (sl_posn (bk_sheets b)) sh_number;
  do (_, position) <- getbof mem position XL_WORKSHEET;
  do name <- py_index (sl_names (bk_sheets b)) sh_number;
  do (g, sh) <- load b mem position name sh_number;
  do l <- list_set (bk_list b) sh_number (Some sh);
  Ok (with_list (with_shared b g) l, sh).

(** book.py:719-723 *)
Fixpoint get_sheets_in (b : book) (mem : list Z) (numbers : list Z) : result book :=
  match numbers with
  | [] => Ok b
  | i :: r => do (b, _) <- get_sheet b mem i; get_sheets_in b mem r
  end.
Definition get_sheets (b : book) (mem : list Z) : result book :=
  get_sheets_in b mem (zrange 0 (zlen (sl_names (bk_sheets b)))).

(** A Book in use: [None] after release_resources. *)
Record api : Type := mk_api { a_book : book; a_mem : option (list Z) }.
Definition nsheets (a : api) : Z := zlen (bk_list (a_book a)).

(** book.py:32 *)
Definition SUPPORTED_VERSIONS : list Z := [80; 70; 50; 45; 40; 30; 21; 20].

(** book.py:79-124, from the workbook stream; [fuel] bounds the records of the globals. *)
Definition open_stream (fuel : nat) (mem : list Z) (base : Z) (override : option (list Z)) (fmt on_demand : bool)
  : result api :=
  do (biff_version, position) <- getbof mem base XL_WORKBOOK_GLOBALS;
  do _ <- guard (negb (biff_version =? 0)) XLRDError;
  do _ <- guard (existsb (Z.eqb biff_version) SUPPORTED_VERSIONS) XLRDError;
  do b <- book0 biff_version base fmt override;
  if biff_version <=? 40 then
    let b := with_sheets b (mk_shst [s2l "Sheet 1"] [0] [0] [] []) in
    do b <- get_sheets (with_list b [None]) mem;
    Ok (mk_api b None)
  else if biff_version =? 45 then
    do (b, _) <- globals codec ops lower load fuel b mem position;
    Ok (mk_api b None)
  else
    do (b, _) <- globals codec ops lower load fuel b mem position;
    let b := with_list b (map (fun _ => None) (sl_names (bk_sheets b))) in
    if on_demand then Ok (mk_api b (Some mem))
    else do b <- get_sheets b mem; Ok (mk_api b None).

(** book.py:627-646: the workbook stream in a file and its offset.  A stream of no bytes
    counts as absent. *)
Definition find_stream (fuel depth : nat) (file : list Z) (ignore : bool) : result (list Z * Z) :=
  if negb (list_eqb (py_slice file 0 8) SIGNATURE) then Ok (file, 0)
  else
    do cd <- open_compdoc fuel depth file ignore;
    do (r1, cd) <- locate_named_stream lower fuel cd (s2l "Workbook");
    match r1 with
    | Some ((_ :: _) as m, base, _) => Ok (m, base)
    | _ =>
        do (r2, _) <- locate_named_stream lower fuel cd (s2l "Book");
        match r2 with
        | Some ((_ :: _) as m, base, _) => Ok (m, base)
        | _ => Err XLRDError
        end
    end.

(** book.py:59-124 from the contents of the file *)
Definition open_workbook_xls (fuel depth : nat) (file : list Z) (override : option (list Z)) (fmt on_demand ignore : bool)
  : result api :=
  do _ <- guard (negb (zlen file =? 0)) XLRDError;
  do (mem, base) <- find_stream fuel depth file ignore;
  open_stream fuel mem base override fmt on_demand.

(** ** Sheet access *)

Inductive call : Type :=
| SheetByIndex (i : Z)
| SheetByName (name : list Z)
| Sheets                                  (* sheets() *)
| Iterate                                 (* list(book): iteration to the end *)
| SheetLoaded (i : Z)
| SheetLoadedName (name : list Z)
| UnloadSheet (i : Z)
| UnloadSheetName (name : list Z)
| ReleaseResources.

Inductive answer : Type :=
| Got (sh : loaded)
| GotAll (l : list (option loaded))
| GotBool (b : bool)
| Done.

(** [self._sheet_names.index(name)], XLRDError for ValueError *)
Fixpoint index_of (names : list (list Z)) (name : list Z) : result Z :=
  match names with
  | [] => Err XLRDError
  | n :: r => if list_eqb n name then Ok 0 else do i <- index_of r name; Ok (i + 1)
  end.

(** Each method gives its outcome and the book it leaves.  An exception while a worksheet
    is read may have changed [countries] of the book from (0, 0) (sheet.py:1146-1147 and
    book.py:843-848), nothing else that is ever used again (sheet.py:795-796); [after] is
    what it then is. *)
Section After.
Variable after : Z * Z.

Definition set_countries (b : book) (c : Z * Z) : book :=
  let g := bk_shared b in with_shared b (mk_shared (g_enc g) (g_fmt g) c (g_datemode g)).
Definition countries_after (b : book) : Z * Z :=
  let k := g_countries (bk_shared b) in if pair_eqb k (0, 0) then after else k.

(** book.py:696-717 *)
Definition m_get_sheet (a : api) (i : Z) : result loaded * api :=
  match a_mem a with
  | None => (Err XLRDError, a)
  | Some mem =>
      match get_sheet (a_book a) mem i with
      | Ok (b, sh) => (Ok sh, mk_api b (Some mem))
      | Err e => (Err e, mk_api (set_countries (a_book a) (countries_after (a_book a))) (Some mem))
      end
  end.

(** book.py:447-453 *)
Definition m_sheet_by_index (a : api) (i : Z) : result loaded * api :=
  match py_index (bk_list (a_book a)) i with
  | Err e => (Err e, a)
  | Ok (Some sh) => (Ok sh, a)
  | Ok None => m_get_sheet a i
  end.

(** book.py:455-461, iterated to the end: the sheets so far *)
Fixpoint m_iterate (a : api) (numbers : list Z) : result (list (option loaded)) * api :=
  match numbers with
  | [] => (Ok [], a)
  | i :: r =>
      match m_sheet_by_index a i with
      | (Err e, a) => (Err e, a)
      | (Ok sh, a) => match m_iterate a r with
                      | (Err e, a) => (Err e, a)
                      | (Ok l, a) => (Ok (Some sh :: l), a)
                      end
      end
  end.

(** book.py:434-445 *)
Fixpoint m_load_all (a : api) (numbers : list Z) : result unit * api :=
  match numbers with
  | [] => (Ok tt, a)
  | i :: r =>
      match py_index (bk_list (a_book a)) i with
      | Err e => (Err e, a)
      | Ok (Some _) => m_load_all a r
      | Ok None => match m_get_sheet a i with
                   | (Err e, a) => (Err e, a)
                   | (Ok _, a) => m_load_all a r
                   end
      end
  end.

Definition m_unload (a : api) (i : Z) : result answer * api :=
  match list_set (bk_list (a_book a)) i None with
  | Err e => (Err e, a)
  | Ok l => (Ok Done, mk_api (with_list (a_book a) l) (a_mem a))
  end.
Definition m_loaded (a : api) (i : Z) : result answer :=
  do x <- py_index (bk_list (a_book a)) i;
  Ok (GotBool (match x with Some _ => true | None => false end)).

Definition got (r : result loaded * api) : result answer * api :=
  match r with (Ok sh, a) => (Ok (Got sh), a) | (Err e, a) => (Err e, a) end.

(** book.py:434-550 *)
Definition perform (a : api) (c : call) : result answer * api :=
  let names := sl_names (bk_sheets (a_book a)) in
  match c with
  | SheetByIndex i => got (m_sheet_by_index a i)
  | SheetByName name => match index_of names name with
                        | Err e => (Err e, a)
                        | Ok i => got (m_sheet_by_index a i)
                        end
  | Sheets => match m_load_all a (zrange 0 (nsheets a)) with
              | (Err e, a) => (Err e, a)
              | (Ok _, a) => (Ok (GotAll (bk_list (a_book a))), a)
              end
  | Iterate => match m_iterate a (zrange 0 (nsheets a)) with
               | (Err e, a) => (Err e, a)
               | (Ok l, a) => (Ok (GotAll l), a)
               end
  | SheetLoaded i => (m_loaded a i, a)
  | SheetLoadedName name => match index_of names name with
                            | Err e => (Err e, a)
                            | Ok i => (m_loaded a i, a)
                            end
  | UnloadSheet i => m_unload a i
  | UnloadSheetName name => match index_of names name with
                            | Err e => (Err e, a)
                            | Ok i => m_unload a i
                            end
  | ReleaseResources => (Ok Done, mk_api (a_book a) None)
  end.
End After.

(** A history of calls: each with what a failed read leaves behind. *)
Fixpoint history (a : api) (h : list (call * (Z * Z))) : list (result answer) * api :=
  match h with
  | [] => ([], a)
  | (c, after) :: h =>
      let '(r, a) := perform after a c in
      let '(rs, a) := history a h in
      (r :: rs, a)
  end.
End Api.
