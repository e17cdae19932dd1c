(** * Around the parser: how errors are passed on, and the example program

    The [Serialize] and [Error::source] implementations of error.rs and the
    program examples/file_parser.rs.  Only definitions. *)
From Coq Require Import List NArith ZArith Bool Ascii String.
From Verif Require Import Str Num Net Types Ext Show Session.
Import ListNotations.
Open Scope N_scope.
Open Scope list_scope.

(** ** error.rs *)

(** What [SerializeStruct] is given: the name and the number of fields passed to
    [serialize_struct], then the fields in the order of [serialize_field].
    [str] and [usize] are the only types of values.  The [Result]s of the
    serializer are not modelled: a serializer that fails ends the function with
    its error. *)
Inductive ser_value :=
| SerStr (s : str)
| SerUsize (n : nat).
Record ser_struct := { ser_name : str; ser_len : nat; ser_fields : list (str * ser_value) }.

(** error.rs:95-133, [Serialize for SdpParserError] *)
Definition serialize_perr (e : perr) : ser_struct :=
  {| ser_name := lit "error";
     ser_len := match e with PSequence _ _ => 3%nat | _ => 4%nat end;
     ser_fields :=
       match e with
       | PLine e line _ =>
           [ (lit "type", SerStr (lit "Line"));
             (lit "message", SerStr (show_ierr e));
             (lit "line", SerStr line) ]
       | PUnsupported e line _ =>
           [ (lit "type", SerStr (lit "Unsupported"));
             (lit "message", SerStr (show_ierr e));
             (lit "line", SerStr line) ]
       | PSequence message _ =>
           [ (lit "type", SerStr (lit "Sequence"));
             (lit "message", SerStr message) ]
       end ++
       [ (lit "line_number",
          SerUsize match e with
                   | PLine _ _ n => n
                   | PUnsupported _ _ n => n
                   | PSequence _ n => n
                   end) ] |}.

(** [dyn Error] values reached from an error of this crate. *)
Inductive dyn_error :=
| DynParser (e : perr)
| DynInternal (e : ierr)
| DynInt (k : int_err)
| DynFloat (k : float_err)
| DynUrl (m : str)
| DynAddr.

(** error.rs:63-74, [source] of SdpParserInternalError *)
Definition ierr_source (e : ierr) : option dyn_error :=
  match e with
  | EInteger k => Some (DynInt k)
  | EFloat k => Some (DynFloat k)
  | EDomain m => Some (DynUrl m)
  | EIpAddress => Some DynAddr
  | _ => None
  end.
(** error.rs:156-166, [source] of SdpParserError *)
Definition perr_source (e : perr) : option dyn_error :=
  match e with
  | PLine e _ _ | PUnsupported e _ _ => Some (DynInternal e)
  | PSequence _ _ => None
  end.
(** [Error::source] of any of them; the errors of std and url have none. *)
Definition dyn_source (e : dyn_error) : option dyn_error :=
  match e with
  | DynParser e => perr_source e
  | DynInternal e => ierr_source e
  | _ => None
  end.
(** [Display] of any of them. *)
Definition show_dyn (e : dyn_error) : str :=
  match e with
  | DynParser e => show_perr e
  | DynInternal e => show_ierr e
  | DynInt k => show_int_err k
  | DynFloat k => show_float_err k
  | DynUrl m => m
  | DynAddr => lit "invalid IP address syntax"
  end.

(** ** examples/file_parser.rs *)
Section WithExt.
Context {E : Ext}.

(** What [File::open] and [read_to_string] give for a file name. *)
Inductive file :=
| CannotOpen
| CannotRead
| Contents (text : str).

(** file_parser.rs:16-72, [main]: its exit status.  [args] is
    [std::env::args()], the program's own name first.  A panic ends the program
    with status 101, unless the hook is set, which ends it with status 0; the
    file is opened and read before the hook is set.  What is printed is not
    modelled. *)
Definition file_parser (args : list str) (fs : str -> file) : N :=
  match args with
  | _ :: filename :: args =>
      match fs filename with
      | CannotOpen => 101
      | CannotRead => 101
      | Contents s =>
          let parse expect_failure :=
            let s := join crlf (filter (fun l => negb (starts_with_char 59 (trim_start l))) (lines s)) in
            match parse_sdp s true with
            | Ok _ => if expect_failure : bool then 1 else 0
            | Err _ | Panic => if expect_failure then 0 else 101
            end in
          match args with
          | x :: _ =>
              if negb (str_eqb (to_lower x) (lit "--expect-failure")) then 1 else parse true
          | [] => parse false
          end
      end
  | _ => 1
  end.

End WithExt.
