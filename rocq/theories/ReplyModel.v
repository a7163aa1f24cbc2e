(** Model of the answers of cookie_auth, src/http_cookie_auth.cpp:171-259. *)
From Coq Require Import String ZArith List.
From Verif Require Import Base Digits DictModel HttpModel MessageModel WriterModel AuthModel.
Import ListNotations.

(** src/http_types.cpp:127-147 with max_age 0, value and path empty, as http_cookie_auth.cpp:227, 253 through response.hpp:190-193 call it *)
Definition delete_cookie_header (name : list Z) : list Z := name ++ bs "=" ++ [34; 34] ++ bs "; Version=1" ++ bs "; Max-Age=" ++ print_dec 0.
(** http_cookie_auth.cpp:176-187, 202-213; the quotation marks are written as 34 *)
Definition html (title h1 : list Z) : list Z :=
  bs " <!DOCTYPE HTML PUBLIC " ++ [34] ++ bs "-//W3C//DTD HTML 4.01 Transitional//EN" ++ [34; 34] ++ bs "http://www.w3.org/TR/1999/REC-html401-19991224/loose.dtd" ++ [34]
  ++ bs "><HTML><HEAD><TITLE>" ++ title ++ bs "</TITLE><META HTTP-EQUIV=" ++ [34] ++ bs "Content-Type" ++ [34] ++ bs " CONTENT=" ++ [34] ++ bs "text/html; charset=ISO-8859-1" ++ [34]
  ++ bs "></HEAD><BODY><H1>" ++ h1 ++ bs "</H1></BODY></HTML> ".
(** http_cookie_auth.cpp:226-231, 251-257: the cookie is set with path empty; the argument is [None] to delete it, and the new cookie is not empty *)
Definition cookie_ops (c : option (option (list Z))) : list wop :=
  match c with
  | None => []
  | Some None => [WMsg (MsgAddHeader HEADER_SET_COOKIE (delete_cookie_header AUTH_COOKIE))]
  | Some (Some []) => []
  | Some (Some v) => [WMsg (MsgAddHeader HEADER_SET_COOKIE (set_cookie_header AUTH_COOKIE v []))]
  end.
(** http_cookie_auth.cpp:171-197 [handle_unauthorized], 199-235 [handle_redirection], 237-259 [handle_ok]: what is done to the writer before [send] *)
Definition reply_ops (x : cresp) : list wop :=
  match x with
  | CUnauthorized => [WMsg (MsgCode 401); WMsg (MsgReason (bs "Unauthorized")); WNoCopy (html (bs "Error") (bs "401 Unauthorized."))]
  | CDone [] c => [WMsg (MsgCode 204); WMsg (MsgReason (bs "No Content"))] ++ cookie_ops (Some c)
  | CDone url c => [WMsg (MsgCode 302); WMsg (MsgReason (bs "Found")); WMsg (MsgAddHeader (bs "Location") url)] ++ cookie_ops (Some c) ++ [WNoCopy (html (bs "Redirect") (bs "302 Found."))]
  | CRedirect url => [WMsg (MsgCode 302); WMsg (MsgReason (bs "Found")); WMsg (MsgAddHeader (bs "Location") url); WNoCopy (html (bs "Redirect") (bs "302 Found."))]
  end.
(** the bytes sent for the request with this method and version, on a connection with this lifecycle; http_cookie_auth.cpp:171-259, http/response_writer.hpp:87-103, http/writer.hpp:166-182 *)
Definition reply (pos : dpos) (method : list Z) (vmaj vmin : Z) (life : lifecycle) (x : cresp) : wst :=
  w_ops pos (w_respond method vmaj vmin life) (reply_ops x ++ [WSend]).
