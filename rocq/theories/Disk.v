(** * Files of bytes for the example program *)
From Coq Require Import List NArith.
From Verif Require Import Str Num Types Tools Fuzz.
Import ListNotations.
Open Scope N_scope.
Open Scope list_scope.

(** file_parser.rs:29-38: [File::open] and [read_to_string] for files given by
    their bytes, [None] if a file cannot be opened.  [read_to_string] fails on
    what is no UTF-8 (its documentation), as [std::str::from_utf8] does.  Errors
    of reading other than these are left to [CannotRead] in Tools.v. *)
Definition disk_file (disk : str -> option (list N)) (name : str) : file :=
  match disk name with
  | None => CannotOpen
  | Some data => match from_utf8 data with Some s => Contents s | None => CannotRead end
  end.
