(** Model of the file service: services/FileService.cpp, services/FileService.hpp, include/pion/http/plugin_service.hpp. *)
From Coq Require Import String ZArith List Bool.
From Verif Require Import Base SMap AlgModel DictModel HttpModel MessageModel WriterModel PathModel.
Import ListNotations.

(** What a path leads to: a directory with these entries, or a file with this content, both with the time of the last change;
    a file may be one that the server may not read. Boost.Filesystem, used at FileService.cpp:53-808 *)
Inductive node := NDir (entries : list (list Z)) (mtime : Z) | NFile (content : list Z) (mtime : Z) (readable : bool).
(** Boost.Filesystem, used at FileService.cpp:53-808 *)
Definition disk := list Z -> option node.
(** The accesses to the file system, with the path used. Each access to a path looks at one [disk]: other programs change files
    between requests, and while a file is sent, but not during a call of the service. Boost.Filesystem, used at FileService.cpp:53-808 *)
Inductive access := AExists (p : list Z) | AIsDir (p : list Z) | ASize (p : list Z) | ATime (p : list Z) | AList (p : list Z) | ARead (p : list Z)
  | AWrite (p : list Z) (append : bool) (data : list Z) | ARemove (p : list Z).
(** Boost.Filesystem, used at FileService.cpp:53-808 *)
Definition a_path (a : access) : list Z :=
  match a with AExists p | AIsDir p | ASize p | ATime p | AList p | ARead p | AWrite p _ _ | ARemove p => p end.
(** the calls of Boost.Filesystem; Boost.Filesystem, used at FileService.cpp:53-808 *)
Definition exists_ (d : disk) (p : list Z) : bool := match d p with Some _ => true | None => false end.
(** Boost.Filesystem, used at FileService.cpp:53-808 *)
Definition is_dir (d : disk) (p : list Z) : bool := match d p with Some (NDir _ _) => true | _ => false end.

(** FileService.hpp:37-127. [f_content]: [None] bytes were never written. *)
Record diskfile := mkdf { f_path : list Z; f_content : option (list (option Z)); f_size : Z; f_time : Z; f_date : list Z; f_mime : list Z }.

Section Service.
(** the version of Boost ([two], PathModel.v), the insertion of headers, [http::types::get_date_string] (src/http_types.cpp:98-112) *)
Variables (two : bool) (date : Z -> list Z).

(** FileService.cpp:759-765. [false]: an exception was thrown. *)
Definition df_update (d : disk) (f : diskfile) : bool * diskfile * list access :=
  match d (f_path f) with
  | Some (NFile c t _) => (true, mkdf (f_path f) (f_content f) (zlen c) t (date t) (f_mime f), [ASize (f_path f); ATime (f_path f)])
  | _ => (false, f, [ASize (f_path f)])
  end.
(** FileService.cpp:767-785; the buffer is replaced before the file is opened *)
Definition df_read (d : disk) (f : diskfile) : bool * diskfile * list access :=
  let n := Z.to_nat (f_size f) in
  let (ok, buf) :=
    match d (f_path f) with
    | Some (NFile c _ true) => (f_size f <=? zlen c, map Some (firstn n c) ++ repeat None (n - List.length c))
    | _ => (false, repeat None n)
    end in
  (ok, mkdf (f_path f) (Some buf) (f_size f) (f_time f) (f_date f) (f_mime f), [ARead (f_path f)]).
(** FileService.cpp:787-808 *)
Definition df_check (d : disk) (f : diskfile) : bool * diskfile * list access :=
  match d (f_path f) with
  | Some (NFile c t _) =>
    let tr := [ASize (f_path f); ATime (f_path f)] in
    if (t =? f_time f) && (zlen c =? f_size f) then (true, f, tr)
    else let '(ok, f', tr') := df_read d (mkdf (f_path f) (f_content f) (zlen c) t (date t) (f_mime f)) in (ok, f', tr ++ tr')
  | _ => (false, f, [ASize (f_path f)])
  end.

(** FileService.cpp:716-754 [findMIMEType], [createMIMETypes] *)
Definition mime_types : list (list Z * list Z) :=
  [(bs "js", bs "text/javascript"); (bs "txt", bs "text/plain"); (bs "xml", bs "text/xml"); (bs "css", bs "text/css"); (bs "htm", bs "text/html");
   (bs "html", bs "text/html"); (bs "xhtml", bs "text/html"); (bs "gif", bs "image/gif"); (bs "png", bs "image/png"); (bs "jpg", bs "image/jpeg");
   (bs "jpeg", bs "image/jpeg"); (bs "svg", bs "image/svg+xml"); (bs "eof", bs "application/vnd.ms-fontobject"); (bs "otf", bs "application/x-font-opentype");
   (bs "ttf", bs "application/x-font-ttf"); (bs "woff", bs "application/font-woff")].
(** used at FileService.cpp:721-727 *)
Definition lower (c : Z) : Z := if (65 <=? c) && (c <=? 90) then c + 32 else c.
(** what follows the last dot, or all; used at FileService.cpp:721-727 *)
Fixpoint extension (s : list Z) : list Z :=
  match s with [] => [] | c :: s' => if (c =? 46) || existsb (Z.eqb 46) s' then (if existsb (Z.eqb 46) s' then extension s' else s') else s end.
(** used at FileService.cpp:721-727 *)
Definition find_mime (file : list Z) : list Z :=
  match find (fun e => str_eqb (fst e) (map lower (extension file))) mime_types with Some e => snd e | None => bs "application/octet-stream" end.

(** The service: FileService.hpp:346-391 and [m_resource] of plugin_service.hpp:85. [max_cache_size] has no option and is always 0:
    files of every size are cached. *)
Record fserv := mkfs { s_resource : list Z; s_dir : list Z; s_file : list Z; s_cache : smap diskfile; s_caching : Z; s_scan : Z; s_chunk : Z; s_writable : bool }.
(** FileService.cpp:44-51 *)
Definition fs_init (resource : list Z) : fserv := mkfs resource [] [] [] 1 0 0 false.
(** assignment to [m_cache_map], FileService.cpp:592-714 *)
Definition with_cache (s : fserv) (c : smap diskfile) : fserv := mkfs (s_resource s) (s_dir s) (s_file s) c (s_caching s) (s_scan s) (s_chunk s) (s_writable s).

(** FileService.cpp:53-114; [set_option] with "max_chunk_size" is given the number. [false]: an exception was thrown. *)
Inductive fopt := ODirectory (v : list Z) | OFile (v : list Z) | OCache (n : Z) | OScan (n : Z) | OChunk (n : Z) | OWritable (b : bool).
(** FileService.cpp:53-114 *)
Definition fs_option (d : disk) (s : fserv) (o : fopt) : bool * fserv * list access :=
  match o with
  | ODirectory v =>
    let p := normalize two v in
    (is_dir d p, mkfs (s_resource s) p (s_file s) (s_cache s) (s_caching s) (s_scan s) (s_chunk s) (s_writable s), AExists p :: if exists_ d p then [AIsDir p] else [])
  | OFile v =>
    (exists_ d v && negb (is_dir d v), mkfs (s_resource s) (s_dir s) v (s_cache s) (s_caching s) (s_scan s) (s_chunk s) (s_writable s), AExists v :: if exists_ d v then [AIsDir v] else [])
  | OCache n =>
    if (0 <=? n) && (n <=? 2) then (true, mkfs (s_resource s) (s_dir s) (s_file s) (s_cache s) n (s_scan s) (s_chunk s) (s_writable s), []) else (false, s, [])
  | OScan n =>
    if (0 <=? n) && (n <=? 3) then (true, mkfs (s_resource s) (s_dir s) (s_file s) (s_cache s) (s_caching s) n (s_chunk s) (s_writable s), []) else (false, s, [])
  | OChunk n => if (0 <=? n) && (n <? two64) then (true, mkfs (s_resource s) (s_dir s) (s_file s) (s_cache s) (s_caching s) (s_scan s) n (s_writable s), []) else (false, s, [])
  | OWritable b => (true, mkfs (s_resource s) (s_dir s) (s_file s) (s_cache s) (s_caching s) (s_scan s) (s_chunk s) b, [])
  end.

(** FileService.cpp:664-714 [addCacheEntry]. An exception of [update] is not caught. *)
Definition add_entry (d : disk) (s : fserv) (rel p : list Z) (placeholder : bool) : bool * fserv * list access :=
  let e := mkdf p None 0 0 [] (find_mime (filename p)) in
  if placeholder then (true, with_cache s (sm_insert (s_cache s) rel e), []) else
  let '(ok, e, tr) := df_update d e in
  if negb ok then (false, s, tr) else
  let '(ok, e, tr') := df_read d e in
  (true, if ok then with_cache s (sm_insert (s_cache s) rel e) else s, tr ++ tr').
(** FileService.cpp:625-662 [scanDirectory]; [depth] bounds the recursion (a deeper tree counts as an exception). The entries of a
    directory are visited in the order of the model's list. [substr] throws if the position is behind the end. *)
Fixpoint scan_entries (scan : fserv -> list Z -> bool * fserv * list access) (d : disk) (p : list Z) (l : list (list Z)) (s : fserv) : bool * fserv * list access :=
  match l with
  | [] => (true, s, [])
  | n :: l' =>
    let q := p_append p n in
    let '(ok, s, tr) :=
      if is_dir d q then scan s q
      else if zlen q <? zlen (s_dir s) + 1 then (false, s, [])
      else add_entry d s (skipn (List.length (s_dir s) + 1) q) q (s_scan s =? 1) in
    if ok then let '(ok, s, tr') := scan_entries scan d p l' s in (ok, s, AIsDir q :: tr ++ tr') else (false, s, AIsDir q :: tr)
  end.
(** FileService.cpp:625-662 *)
Fixpoint scan_dir (depth : nat) (d : disk) (s : fserv) (p : list Z) : bool * fserv * list access :=
  match depth with
  | O => (false, s, [])
  | S depth' =>
    match d p with
    | Some (NDir entries _) => let '(ok, s, tr) := scan_entries (scan_dir depth' d) d p entries s in (ok, s, AList p :: tr)
    | _ => (false, s, [AList p])
    end
  end.
(** FileService.cpp:592-615 *)
Definition fs_start (depth : nat) (d : disk) (s : fserv) : bool * fserv * list access :=
  if s_scan s =? 0 then (true, s, []) else
  let s := if (s_caching s =? 0) && (1 <? s_scan s) then mkfs (s_resource s) (s_dir s) (s_file s) (s_cache s) 1 (s_scan s) (s_chunk s) (s_writable s) else s in
  let '(ok, s, tr) := if is_nil (s_file s) then (true, s, []) else add_entry d s [] (s_file s) (s_scan s =? 1) in
  if negb ok then (false, s, tr) else
  if is_nil (s_dir s) then (true, s, tr) else let '(ok, s, tr') := scan_dir depth d s (s_dir s) in (ok, s, tr ++ tr').
(** FileService.cpp:617-623 *)
Definition fs_stop (s : fserv) : fserv := with_cache s [].

(* ------------------------------------------------------------------ requests *)

(** plugin_service.hpp:71-79 *)
Definition relative (s : fserv) (resource : list Z) : list Z :=
  if zlen resource <=? zlen (s_resource s) then [] else url_decode (skipn (List.length (s_resource s) + 1) resource).

(** What the service does with a request: an answer made with these calls of a [response_writer] (with [send]; the connection is
    finished after it), a file to be sent, or an exception (which the server answers). FileService.cpp:117-590 *)
Inductive fres := FAnswer (ops : list wop) | FSend (f : diskfile) | FThrow | FBad.
(** the end of line in FileService.cpp:161-579 *)
Definition NL : list Z := [10].
(** the pages of FileService.cpp:161-169, 187-195, 423-431, 454-462, 471-479, 493-501, 519-527, 548-556, 571-579 *)
Definition page_start (title h1 before : list Z) : list Z :=
  bs "<html><head>" ++ NL ++ bs "<title>" ++ title ++ bs "</title>" ++ NL ++ bs "</head><body>" ++ NL ++ bs "<h1>" ++ h1 ++ bs "</h1>" ++ NL ++ bs "<p>" ++ before.
(** FileService.cpp:161-169, 187-195, 423-431, 454-462, 471-479, 493-501, 519-527, 548-556, 571-579 *)
Definition page_end (after : list Z) : list Z := after ++ bs "</p>" ++ NL ++ bs "</body></html>" ++ NL.
(** an answer with a page about [about], the resource or the method; [body]: whether the page is written; FileService.cpp:161-169, 187-195, 423-431, 454-462, 471-479, 493-501, 519-527, 548-556, 571-579 *)
Definition page (code : Z) (reason title h1 before about after : list Z) (extra1 extra2 : list wop) (body : bool) : fres :=
  match xml_encode about with
  | Some x => FAnswer ([WMsg (MsgCode code); WMsg (MsgReason reason)] ++ extra1
                       ++ (if body then [WNoCopy (page_start title h1 before); WText x; WNoCopy (page_end after)] else []) ++ extra2)
  | None => if body then FBad else FAnswer ([WMsg (MsgCode code); WMsg (MsgReason reason)] ++ extra1 ++ extra2)
  end.
(** http_types.cpp:57 *)
Definition HEAD : list Z := bs "HEAD".
(** FileService.cpp:271, 308, 357 *)
Definition is_head (m : msg) : bool := str_eqb (m_method m) HEAD.
(** FileService.cpp:159-181, 184-207 *)
Definition forbidden (m : msg) (why : list Z) : fres :=
  page 403 (bs "Forbidden") (bs "403 Forbidden") (bs "Forbidden") (bs "The requested URL ") (m_resource m) why [] [] (negb (is_head m)).
(** FileService.cpp:568-590 *)
Definition not_found (m : msg) : fres :=
  page 404 (bs "Not Found") (bs "404 Not Found") (bs "Not Found") (bs "The requested URL ") (m_resource m) (bs " was not found on this server.") [] [] (negb (is_head m)).

(** FileService.cpp:119-151: the file asked for *)
Definition file_path (s : fserv) (m : msg) : option (list Z) :=
  let rel := relative s (m_resource m) in
  if is_nil rel then (if is_nil (s_file s) then None else Some (normalize two (s_file s)))
  else if is_nil (s_dir s) then None else Some (normalize two (p_append (s_dir s) rel)).

(** the answer without a body, FileService.cpp:383-415 *)
Definition headers_only (f : diskfile) (code : Z) (reason : list Z) : fres :=
  FAnswer [WMsg (MsgContentType (f_mime f)); WMsg (MsgAddHeader (bs "Last-Modified") (f_date f)); WMsg (MsgCode code); WMsg (MsgReason reason)].
(** which of the answers, FileService.cpp:266-278, 305-312, 353-359 *)
Definition choose (m : msg) (f : diskfile) : fres :=
  if str_eqb (f_date f) (d_get (m_headers m) (bs "If-Modified-Since")) then headers_only f 304 (bs "Not Modified")
  else if is_head m then headers_only f 200 (bs "OK") else FSend f.
(** FileService.cpp:266-278, 305-312, 353-380 *)
Definition sends (r : fres) : bool := match r with FSend _ => true | _ => false end.

(** FileService.cpp:329-373: the file is not in the cache *)
Definition fs_from_disk (d : disk) (s : fserv) (m : msg) (p rel : list Z) : fres * fserv * list access :=
  if negb (exists_ d p) then (not_found m, s, [AExists p]) else
  let '(ok, f, tr) := df_update d (mkdf p None 0 0 [] (find_mime (filename p))) in
  let tr := AExists p :: tr in
  if negb ok then (FThrow, s, tr) else
  let r := choose m f in
  if sends r && negb (s_caching s =? 0) then
    let '(ok, f, tr') := df_read d f in
    if ok then (FSend f, with_cache s (sm_insert (s_cache s) rel f), tr ++ tr') else (FThrow, s, tr ++ tr')
  else (r, s, tr).
(** FileService.cpp:209-416: GET and HEAD *)
Definition fs_get (d : disk) (s : fserv) (m : msg) (p : list Z) : fres * fserv * list access :=
  let rel := relative s (m_resource m) in
  if (0 <? s_caching s) || (0 <? s_scan s) then
    match sm_find (s_cache s) rel with
    | None => if (s_scan s =? 1) || (s_scan s =? 3) then (not_found m, s, []) else fs_from_disk d s m p rel
    | Some e =>
      if s_caching s =? 0 then
        let '(ok, f, tr) := df_update d (mkdf (f_path e) None 0 0 [] (f_mime e)) in
        (if ok then choose m f else FThrow, s, tr)
      else
        let '(ok, e', tr) :=
          if f_time e =? 0 then
            let '(ok, f, tr) := df_update d e in
            if ok then let '(ok, f, tr') := df_read d f in (ok, f, tr ++ tr') else (false, f, tr)
          else if s_caching s =? 1 then df_check d e else (true, e, []) in
        (if ok then choose m e' else FThrow, with_cache s (sm_set (s_cache s) rel e'), tr)
    end
  else fs_from_disk d s m p rel.

(** FileService.cpp:490-509: the answer after the file was written; the answer prepared before is kept if the file exists *)
Definition write_answer (d' : disk) (m : msg) (p : list Z) (before : fres) : fres :=
  if exists_ d' p then before else
  match before with
  | FAnswer ops =>
    match xml_encode (m_resource m) with
    | Some x => FAnswer (ops ++ [WMsg (MsgCode 500); WMsg (MsgReason (bs "Server Error")); WNoCopy (page_start (bs "500 Server Error") (bs "Server Error") (bs "Error writing to "));
                                 WText x; WNoCopy (page_end (bs "."))])
    | None => FBad
    end
  | r => r
  end.
(** FileService.cpp:417-544: POST, PUT and DELETE; [d'] is the disk after the file was written or removed. [remove] throws if
    the disk still has the file; the exception's text is [why]. The page about it is made with more calls than here, of the same text. *)
Definition fs_change (d d' : disk) (s : fserv) (m : msg) (p : list Z) (data why : list Z) : fres * list access :=
  if negb (s_writable s) then
    (page 405 (bs "Method Not Allowed") (bs "405 Method Not Allowed") (bs "Not Allowed") (bs "The requested method ") (m_method m) (bs " is not allowed on this server.")
       [] [WMsg (MsgAddHeader (bs "Allow") (bs "GET, HEAD"))] true, [])
  else if str_eqb (m_method m) (bs "DELETE") then
    if negb (exists_ d p) then (not_found m, [AExists p])
    else if exists_ d' p then
      (page 500 (bs "Server Error") (bs "500 Server Error") (bs "Server Error") (bs "Could not delete ") (m_resource m) (bs ".</p><p>" ++ why ++ bs ".") [] [] true, [AExists p; ARemove p])
    else (FAnswer [WMsg (MsgCode 204); WMsg (MsgReason (bs "No Content"))], [AExists p; ARemove p])
  else
    let append := str_eqb (m_method m) (bs "POST") in
    let write := [AWrite p append data; AExists p] in
    if exists_ d p then (write_answer d' m p (FAnswer [WMsg (MsgCode 204); WMsg (MsgReason (bs "No Content"))]), AExists p :: write)
    else if negb (exists_ d (branch p)) then
      (page 404 (bs "Not Found") (bs "404 Not Found") (bs "Not Found") (bs "The directory of the requested URL ") (m_resource m) (bs " was not found on this server.") [] [] true,
       [AExists p; AExists (branch p)])
    else
      (write_answer d' m p (page 201 (bs "Created") (bs "201 Created") (bs "Created") [] (m_resource m) [] [WMsg (MsgAddHeader (bs "Location") (m_resource m))] [] true),
       [AExists p; AExists (branch p)] ++ write).

(** FileService.cpp:117-566 [operator()] *)
Definition fs_handle (d d' : disk) (s : fserv) (m : msg) (data why : list Z) : fres * fserv * list access :=
  match file_path s m with
  | None => (not_found m, s, [])
  | Some p =>
    if negb (is_prefix (s_dir s) p) then (forbidden m (bs " is not in the configured directory."), s, []) else
    if is_dir d p then (forbidden m (bs " is a directory."), s, [AIsDir p]) else
    let '(r, s, tr) :=
      if str_eqb (m_method m) (bs "GET") || is_head m then fs_get d s m p
      else if str_eqb (m_method m) (bs "POST") || str_eqb (m_method m) (bs "PUT") || str_eqb (m_method m) (bs "DELETE") then
        let (r, tr) := fs_change d d' s m p data why in (r, s, tr)
      else (page 501 (bs "Not Implemented") (bs "501 Not Implemented") (bs "Not Implemented") (bs "The requested method ") (m_method m) (bs " is not implemented on this server.") [] [] true, s, []) in
    (r, s, AIsDir p :: tr)
  end.

(* ------------------------------------------------------------------ histories *)

(** the calls on a service, each with the disk it finds (and, for a request, the disk after it); FileService.hpp:240-391 *)
Inductive fop := FOption (d : disk) (o : fopt) | FStart (depth : nat) (d : disk) | FStop | FRequest (d d' : disk) (m : msg) (data why : list Z).
(** FileService.cpp:53-714 *)
Definition fs_step (s : fserv) (o : fop) : fserv * list access :=
  match o with
  | FOption d o => let '(_, s, tr) := fs_option d s o in (s, tr)
  | FStart n d => let '(_, s, tr) := fs_start n d s in (s, tr)
  | FStop => (fs_stop s, [])
  | FRequest d d' m data why => let '(_, s, tr) := fs_handle d d' s m data why in (s, tr)
  end.
(** FileService.cpp:53-714 *)
Fixpoint fs_run (s : fserv) (ops : list fop) : fserv * list access :=
  match ops with [] => (s, []) | o :: ops' => let (s, tr) := fs_step s o in let (s, tr') := fs_run s ops' in (s, tr ++ tr') end.
End Service.
