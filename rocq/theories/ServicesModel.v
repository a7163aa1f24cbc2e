(** Model of the services that come with the library, but FileService (FileModel.v): services/LogService.cpp and .hpp, EchoService.cpp, CookieService.cpp, HelloService.cpp, AllowNothingService.cpp. *)
From Coq Require Import String ZArith List Bool.
From Verif Require Import Base Digits DictModel HttpModel MessageModel WriterModel.
Import ListNotations.

(* ------------------------------------------------------------------ the log *)

(** LogService.hpp:66-73: [m_log_events], [m_num_events], [m_max_events] *)
Record log := mklog { g_events : list (list Z); g_num : Z; g_max : Z }.
(** LogService.cpp:33, 40, 45 *)
Definition g_init : log := mklog [] 0 25.
(** LogService.cpp:98-101: the loop; [erase] on an empty list is undefined behaviour. Structural on the list: every turn erases an element. *)
Fixpoint g_trim (max num : Z) (l : list (list Z)) : outcome (list (list Z) * Z) :=
  if num >? max then match l with [] => Bad BadMemory | _ :: l' => g_trim max (wrap32 (num - 1)) l' end else Ok (l, num).
(** LogService.cpp:93-102 [addLogString] (under the lock) and LogService.hpp:54 [setMaxEvents] (no lock; the argument is an unsigned int) *)
Inductive gop := GAdd (s : list Z) | GMax (n : Z).
(** LogService.cpp:93-102, LogService.hpp:54 *)
Definition g_op (g : log) (x : gop) : outcome log :=
  match x with
  | GAdd s => obind (g_trim (g_max g) (wrap32 (g_num g + 1)) (g_events g ++ [s])) (fun r => Ok (mklog (fst r) (snd r) (g_max g)))
  | GMax n => Ok (mklog (g_events g) (g_num g) (wrap32 n))
  end.
(** LogService.cpp:93-102, LogService.hpp:54 *)
Fixpoint g_run (g : log) (l : list gop) : outcome log := match l with [] => Ok g | x :: l => obind (g_op g x) (fun g => g_run g l) end.
(** LogService.cpp:104-112 with a logging library, 154-162 *)
Definition log_ops (g : log) : list wop := WMsg (MsgContentType (bs "text/plain")) :: map WText (g_events g).
(** LogService.cpp:113-117: without one, whether logging is switched off *)
Definition no_log_ops (off : bool) : list wop :=
  [WMsg (MsgContentType (bs "text/plain")); WText (if off then bs "Logging is disabled." else bs "Using ostream logging."); WText [13; 10]].

(* ------------------------------------------------------------------ pages *)

(** http_types.cpp:24 *)
Definition CRLF : list Z := [13; 10].
(** EchoService.cpp:23-30 *)
Definition term_ops (p : list Z * list Z) : list wop := [WText (fst p); WText (bs ": "); WText (snd p); WText CRLF].
(** [write_no_copy] of a title and of two ends of line; EchoService.cpp:44-120 *)
Definition title_ops (s : list Z) : list wop := [WNoCopy s; WNoCopy CRLF; WNoCopy CRLF].
(** EchoService.cpp:36-123, for the request [m] with the resource [orig] originally asked for and the authenticated user, if any. The content is
    [get_content_length] bytes of [get_content]. (112: [get_user] is const and gives the pointer.) *)
Definition echo_ops (m : msg) (orig : list Z) (user : option (list Z)) : outcome (list wop) :=
  obind (if m_clen m =? 0 then Ok [] else obind (content_of m) (fun c => Ok [WBinary c; WNoCopy CRLF; WNoCopy CRLF])) (fun post =>
  Ok ([WMsg (MsgContentType (bs "text/plain"))]
    ++ title_ops (bs "[Request Echo]")
    ++ [WText (bs "Request method: "); WText (m_method m); WText CRLF;
        WText (bs "Resource originally requested: "); WText orig; WText CRLF;
        WText (bs "Resource delivered: "); WText (m_resource m); WText CRLF;
        WText (bs "Query string: "); WText (m_query_string m); WText CRLF;
        WText (bs "HTTP version: "); WText (print_dec (m_vmaj m)); WText (bs "."); WText (print_dec (m_vmin m)); WText CRLF;
        WText (bs "Content length: "); WText (print_dec (m_clen m)); WText CRLF; WText CRLF]
    ++ title_ops (bs "[Request Headers]") ++ concat (map term_ops (m_headers m)) ++ [WNoCopy CRLF]
    ++ title_ops (bs "[Query Parameters]") ++ concat (map term_ops (m_queries m)) ++ [WNoCopy CRLF]
    ++ title_ops (bs "[Cookie Parameters]") ++ concat (map term_ops (m_cookies m)) ++ [WNoCopy CRLF]
    ++ title_ops (bs "[POST Content]") ++ post
    ++ match user with None => [] | Some u => title_ops (bs "[USER Info]") ++ [WText (bs "User authenticated, username: "); WText u; WNoCopy CRLF] end)).

(** HelloService.cpp:22-30 *)
Definition hello_ops : list wop := [WNoCopy (bs "<html><body>Hello World!</body></html>"); WNoCopy CRLF; WNoCopy CRLF].
(** AllowNothingService.cpp:20-38 *)
Definition deny_ops : list wop :=
  [WMsg (MsgCode 405); WMsg (MsgReason (bs "Method Not Allowed")); WMsg (MsgAddHeader (bs "Allow") (bs "GET"));
   WNoCopy (bs "<html><body>No, you can't.</body></html>"); WNoCopy CRLF; WNoCopy CRLF].

(** response.hpp:176-179 with src/http_types.cpp:127-147: [delete_cookie] of one argument *)
Definition drop_cookie_header (name : list Z) : list Z := set_cookie_header name [] (bs "/") ++ bs "; Max-Age=" ++ print_dec 0.
(** CookieService.cpp:35-59 *)
Definition action_ops (m : msg) : list wop :=
  if d_has (m_queries m) (bs "action") then
    let name := d_get (m_queries m) (bs "cookie_name") in
    let value := d_get (m_queries m) (bs "cookie_value") in
    if str_eqb (d_get (m_queries m) (bs "action")) (bs "Add Cookie") then
      match name, value with
      | _ :: _, _ :: _ =>
        [WMsg (MsgAddHeader HEADER_SET_COOKIE (set_cookie_header name value (bs "/")));
         WText ([10] ++ bs "<p>[Added cookie "); WText name; WText (bs "="); WText value; WText (bs "]</p>" ++ [10; 10])]
      | _, _ => [WText ([10] ++ bs "<p>[Error: You must specify a name and value to add a cookie]</p>" ++ [10; 10])]
      end
    else if str_eqb (d_get (m_queries m) (bs "action")) (bs "delete") then
      match name with
      | [] => [WText ([10] ++ bs "<p>[Error: You must specify a name to delete a cookie]</p>" ++ [10; 10])]
      | _ => [WMsg (MsgAddHeader HEADER_SET_COOKIE (drop_cookie_header name)); WText ([10] ++ bs "<p>[Deleted cookie "); WText name; WText (bs "]</p>" ++ [10; 10])]
      end
    else [WText ([10] ++ bs "<p>[Error: Unrecognized action]</p>" ++ [10; 10])]
  else [].
(** CookieService.cpp:61-100 *)
Definition cookie_list_ops (m : msg) : list wop :=
  (if d_has (m_headers m) HEADER_COOKIE then
     [WText ([10] ++ bs "<h2>Cookie Headers</h2>" ++ [10] ++ bs "<ul>" ++ [10])]
     ++ concat (map (fun p : list Z * list Z => [WText (bs "<li>Cookie: "); WText (snd p); WText [10]]) (d_range (m_headers m) HEADER_COOKIE))
     ++ [WText (bs "</ul>" ++ [10; 10])]
   else [WText ([10] ++ bs "<h2>No Cookie Headers</h2>" ++ [10; 10])])
  ++ (match m_cookies m with
      | [] => [WText ([10] ++ bs "<h2>No Cookie Variables</h2>" ++ [10; 10])]
      | d => [WText ([10] ++ bs "<h2>Cookie Variables</h2>" ++ [10] ++ bs "<ul>" ++ [10])]
             ++ concat (map (fun p : list Z * list Z =>
                  [WText (bs "<li>"); WText (fst p); WText (bs ": "); WText (snd p); WText (bs " <a href=""");
                   WText (m_resource m); WText (bs "?action=delete&cookie_name="); WText (fst p); WText (bs """>[Delete]</a>" ++ [10])]) d)
             ++ [WText (bs "</ul>" ++ [10; 10])]
      end)
  ++ [WText ([10] ++ bs "<h2>Add Cookie</h2>" ++ [10] ++ bs "<p><form action="""); WText (m_resource m);
      WText (bs """ method=""POST"">" ++ [10] ++ bs "Name: <input type=""text"" name=""cookie_name""><br />" ++ [10]
             ++ bs "Value: <input type=""text"" name=""cookie_value""><br />" ++ [10]
             ++ bs "<input type=""submit"" name=""action"" value=""Add Cookie""></p>" ++ [10] ++ bs "</form>" ++ [10; 10])].
(** CookieService.cpp:23-107 *)
Definition cookie_page_ops (m : msg) : list wop :=
  [WMsg (MsgContentType (bs "text/html"));
   WNoCopy (bs "<html>" ++ [10] ++ bs "<head>" ++ [10] ++ bs "<title>Cookie Service</title>" ++ [10] ++ bs "</head>" ++ [10] ++ bs "<body>" ++ [10; 10] ++ bs "<h1>Cookie Service</h1>" ++ [10])]
  ++ action_ops m ++ cookie_list_ops m ++ [WNoCopy ([10] ++ bs "</body>" ++ [10] ++ bs "</html>" ++ [10])].

(** The answer to a request of this method and version, over a connection with this lifecycle: the writer is made for the request, filled, and sent. http/response_writer.hpp:87-103, http/writer.hpp:166-182 *)
Definition page_bytes (pos : dpos) (method : list Z) (vmaj vmin : Z) (life : lifecycle) (l : list wop) : list Z :=
  w_out (w_ops pos (w_respond method vmaj vmin life) (l ++ [WSend])).
