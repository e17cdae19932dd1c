(** * What the example program prints (examples/file_parser.rs).  Only definitions. *)
From Coq Require Import List NArith ZArith Bool Ascii String.
From Verif Require Import Str Num Net Types Ext Show Session Tools.
Import ListNotations.
Open Scope N_scope.
Open Scope list_scope.

(** One call of [println!], [eprintln!] or [panic!]: the text without the line end;
    of a panic the message only (the default hook puts the thread and the source
    position in front of it, on stderr). *)
Inductive printed :=
| Out (s : str)
| Errput (s : str)
| Panicked (s : str).

Section WithExt.
Context {E : Ext}.
(** Parameters: [{:#?}] of a session (derived, in Debug.v), the text of
    [std::io::Error] for a file and the message of a panic inside the parser, which
    are not modelled. *)
Context (debug : session -> str) (os_error : str -> str) (panic_message : str).

(** file_parser.rs:16-72, [main]: what it prints, and its exit status.
    [Path::display] of a UTF-8 name is the name. *)
Definition file_parser_run (args : list str) (fs : str -> file) : list printed * N :=
  match args with
  | _ :: filename :: args =>
      match fs filename with
      | CannotOpen => ([Panicked (fmt "Failed to open {}: {}" [filename; os_error filename])], 101)
      | CannotRead => ([Panicked (fmt "Couldn't read {}: {}" [filename; os_error filename])], 101)
      | Contents s =>
          let panic expect_failure m :=
            if expect_failure : bool then ([Out (lit "Exited with failure, as expected.")], 0) else ([Panicked m], 101) in
          let parse expect_failure :=
            let s := join crlf (filter (fun l => negb (starts_with_char 59 (trim_start l))) (lines s)) in
            match parse_sdp s true with
            | Ok sdp =>
                let o := Out (fmt "Parsed SDP structure:{}{}" [[10]; debug sdp]) in
                if expect_failure : bool
                then ([o; Errput (lit "Successfully parsed SDP that was expected to fail. You may need to update the example expectations.")], 1)
                else ([o; Out (lit "Successfully parsed SDP")], 0)
            | Err why => panic expect_failure (fmt "Failed to parse SDP with error: {}" [show_perr why])
            | Panic => panic expect_failure panic_message
            end in
          match args with
          | x :: _ =>
              if negb (str_eqb (to_lower x) (lit "--expect-failure"))
              then ([Errput (lit "Extra arguments passed!")], 1)
              else parse true
          | [] => parse false
          end
      end
  | _ => ([Errput (lit "Missing file name argument!")], 1)
  end.
End WithExt.
