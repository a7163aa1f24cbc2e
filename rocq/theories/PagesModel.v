(** Model of the pages with which the HTTP server and basic authentication answer by default: src/http_server.cpp:187-300, src/http_basic_auth.cpp:133-154. *)
From Coq Require Import String ZArith List Bool.
From Verif Require Import Base AlgModel DictModel HttpModel MessageModel WriterModel ReplyModel FileModel.
Import ListNotations.

(** http_server.cpp:187-203, 205-225, 227-248, 250-275, 277-300; the arguments are [error_msg] and [allowed_methods]. The last is http_basic_auth.cpp:133-154 with [m_realm]. *)
Inductive errpage := PBad | PNotFound | PError (why : list Z) | PForbidden (why : list Z) | PNotAllowed (allowed : list Z) | PUnauthorized (realm : list Z).

(** The calls before [send]. [xml_encode] of AlgModel.v is partial: [None] is an access outside its argument. The pages start as those of FileModel.v do. http_server.cpp:187-300, http_basic_auth.cpp:133-154 *)
Definition err_ops (m : msg) (e : errpage) : outcome (list wop) :=
  let about (s : list Z) (k : list Z -> list wop) := match xml_encode s with Some x => Ok (k x) | None => Bad BadMemory end in
  match e with
  | PBad => Ok [WMsg (MsgCode 400); WMsg (MsgReason (bs "Bad Request"));
                WNoCopy (page_start (bs "400 Bad Request") (bs "Bad Request") (bs "Your browser sent a request that this server could not understand.") ++ page_end [])]
  | PNotFound => about (m_resource m) (fun x =>
      [WMsg (MsgCode 404); WMsg (MsgReason (bs "Not Found")); WNoCopy (page_start (bs "404 Not Found") (bs "Not Found") (bs "The requested URL "));
       WText x; WNoCopy (page_end (bs " was not found on this server."))])
  | PError why => about why (fun x =>
      [WMsg (MsgCode 500); WMsg (MsgReason (bs "Server Error"));
       WNoCopy (page_start (bs "500 Server Error") (bs "Internal Server Error") (bs "The server encountered an internal error: <strong>"));
       WText x; WNoCopy (page_end (bs "</strong>"))])
  | PForbidden why => about (m_resource m) (fun x =>
      [WMsg (MsgCode 403); WMsg (MsgReason (bs "Forbidden"));
       WNoCopy (page_start (bs "403 Forbidden") (bs "Forbidden") (bs "User not authorized to access the requested URL "));
       WText x; WNoCopy (bs "</p><p><strong>" ++ NL); WText why; WNoCopy (page_end (bs "</strong>"))])
  | PNotAllowed allowed => about (m_method m) (fun x =>
      [WMsg (MsgCode 405); WMsg (MsgReason (bs "Method Not Allowed"))]
      ++ match allowed with [] => [] | _ => [WMsg (MsgAddHeader (bs "Allow") allowed)] end
      ++ [WNoCopy (page_start (bs "405 Method Not Allowed") (bs "Not Allowed") (bs "The requested method "));
          WText x; WNoCopy (page_end (bs " is not allowed on this server."))])
  | PUnauthorized realm => Ok
      [WMsg (MsgCode 401); WMsg (MsgReason (bs "Unauthorized")); WMsg (MsgAddHeader (bs "WWW-Authenticate") (bs "Basic realm=""" ++ realm ++ bs """"));
       WNoCopy (html (bs "Error") (bs "401 Unauthorized."))]
  end.
