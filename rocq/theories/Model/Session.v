(** The server with its parser.
    Source: nclangsrv/JsonMessageHandler.h 78, JsonMessageHandler.cpp 1004-1016. *)
From Verif Require Import Model.Base Model.Double Model.Macro Model.NCText Model.MacrosDesc Model.Server.
From Verif Require Import Model.Settings Model.Document.

Section Session.
Variable lit : string -> dbl.
Variable libm : string -> dbl -> dbl.
Variables atan log cabs : dbl -> dbl.
Variable stale : Z.
Variable range_what : string.
Variable left : settings.
Variable d : disk.
Variables gcodes mcodes : res codes.
Variable macros : res (macros_desc * option string).
Variable macro_error : string -> json.
Variable logger : bool.

(** JsonMessageHandler.cpp 1015: the member [mParser] is used for every document.
    Nothing between it and [main] catches an exception (nclangsrv.cpp 105-174), so
    what it leaves in the parser then does not matter. *)
Definition session_parse (n : nc_parser) (code : string) : res (nc_parser * nc_result) :=
  match nc_parse lit libm atan log cabs stale range_what left d code n with
  | (n', Ok r) => Ok (n', r)
  | (_, Exc e) => Exc e
  end.

Definition session_env : server_env := mkEnv nc_parser session_parse gcodes mcodes macros macro_error logger.

End Session.
