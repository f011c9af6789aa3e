(** Model of the front door of the package, /repo/xlrd/__init__.py:33-81
    (inspect_format) and 84-185 (open_workbook, up to the call of
    open_workbook_xls). *)
From Verif Require Import Base Text.

(** __init__.py:25-32: the formats; [None] (unknown) is Coq's [None]. *)
Inductive file_format : Type := Xls | Xlsb | Xlsx | Ods | Zip.

(** compdoc.py:20 and __init__.py:34 *)
Definition XLS_SIGNATURE : list Z := [0xD0; 0xCF; 0x11; 0xE0; 0xA1; 0xB1; 0x1A; 0xE1].
Definition ZIP_SIGNATURE : list Z := [0x50; 0x4B; 3; 4].
Definition PEEK_SIZE : Z := Z.max (zlen XLS_SIGNATURE) (zlen ZIP_SIGNATURE).

(** [s.startswith(p)] *)
Definition startswith (s p : list Z) : bool := list_eqb (firstn (List.length p) s) p.

Section Environment.
(** The file system, [os.path.expanduser], the member names that
    [zipfile.ZipFile] finds in some content, and [str.lower]. *)
Variable files : list Z -> result (list Z).
Variable expanduser : list Z -> list Z.
Variable namelist : list Z -> result (list (list Z)).
Variable lower : list Z -> list Z.

(** [name.replace('\\', '/')], __init__.py:70 *)
Definition forward_slashes (name : list Z) : list Z := map (fun c => if c =? 92 then 47 else c) name.

Definition member (s : list Z) (names : list (list Z)) : bool := existsb (list_eqb s) names.

(** [if content:] *)
Definition given (content : option (list Z)) : bool :=
  match content with Some (_ :: _) => true | _ => false end.

(** __init__.py:39-81.  [path] is [None] when the argument is left out;
    the file is read once for the peek and again by zipfile, with no change in between. *)
Definition inspect_format (path content : option (list Z)) : result (option file_format) :=
  do whole <- match content with
              | Some (b :: r) => Ok (b :: r)
              | _ => match path with
                     | None => Err TypeError
                     | Some p => files (expanduser p)
                     end
              end;
  let peek := py_slice whole 0 PEEK_SIZE in
  if startswith peek XLS_SIGNATURE then Ok (Some Xls) else
  if startswith peek ZIP_SIGNATURE then
    do names <- namelist whole;
    let component_names := map (fun name => lower (forward_slashes name)) names in
    if member (s2l "xl/workbook.xml") component_names then Ok (Some Xlsx) else
    if member (s2l "xl/workbook.bin") component_names then Ok (Some Xlsb) else
    if member (s2l "content.xml") component_names then Ok (Some Ods) else
    Ok (Some Zip)
  else Ok None.

(** __init__.py:162-183 with the start of biff2_8_load, book.py:617-634: what is
    handed to the parser is the content if there is any, else the file named
    [filename] -- without [expanduser]. *)
Definition open_workbook {B} (parser : list Z -> result B) (filename file_contents : option (list Z)) : result B :=
  do fmt <- inspect_format filename file_contents;
  match fmt with
  | None | Some Xls =>
      do whole <- match file_contents with
                  | Some (b :: r) => Ok (b :: r)
                  | _ => match filename with
                         | None => Err TypeError
                         | Some p => do w <- files p;
                                     do _ <- guard (negb (zlen w =? 0)) XLRDError; Ok w
                         end
                  end;
      parser whole
  | Some _ => Err XLRDError
  end.
End Environment.
