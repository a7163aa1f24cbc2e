(** Model of the options of the file service as texts (services/FileService.cpp). *)
From Coq Require Import String ZArith List Bool.
From Verif Require Import Base AlgModel HttpModel PathModel FileModel.
Import ListNotations.

(** The exceptions of set_option: [error::directory_not_found] and [error::file_not_found] with the name, [error::bad_arg] with the name of
    the option, and [boost::bad_lexical_cast]. FileService.cpp:66, 78, 88, 100, 103, 110, 113 *)
Inductive refusal := NoDirectory (name : list Z) | NoFile (name : list Z) | BadArg (name : list Z) | BadCast.
(** FileService.cpp:53-115. [plugin::check_cygwin_path] does nothing on systems other than Cygwin (src/plugin.cpp:48-60). *)
Definition set_option (two : bool) (d : disk) (s : fserv) (name value : list Z) : option refusal * fserv * list access :=
  let opt (o : fopt) := let '(_, s', tr) := fs_option two d s o in (None, s', tr) in
  let bad := (Some (BadArg name), s, []) in
  if str_eqb name (bs "directory") then
    let '(ok, s', tr) := fs_option two d s (ODirectory value) in (if ok then None else Some (NoDirectory (s_dir s')), s', tr)
  else if str_eqb name (bs "file") then
    let '(ok, s', tr) := fs_option two d s (OFile value) in (if ok then None else Some (NoFile (s_file s')), s', tr)
  else if str_eqb name (bs "cache") then
    if str_eqb value (bs "0") then opt (OCache 0) else if str_eqb value (bs "1") then opt (OCache 1)
    else if str_eqb value (bs "2") then opt (OCache 2) else bad
  else if str_eqb name (bs "scan") then
    if str_eqb value (bs "0") then opt (OScan 0) else if str_eqb value (bs "1") then opt (OScan 1)
    else if str_eqb value (bs "2") then opt (OScan 2) else if str_eqb value (bs "3") then opt (OScan 3) else bad
  else if str_eqb name (bs "max_chunk_size") then
    match lexical_cast_size value with Some n => opt (OChunk n) | None => (Some BadCast, s, []) end
  else if str_eqb name (bs "writable") then
    if str_eqb value (bs "true") then opt (OWritable true) else if str_eqb value (bs "false") then opt (OWritable false) else bad
  else bad.
(** calls of set_option one after the other, whether they throw or not; FileService.cpp:53-115 *)
Definition set_options (two : bool) (l : list (disk * (list Z * list Z))) (s : fserv) : fserv :=
  fold_left (fun s x => snd (fst (set_option two (fst x) s (fst (snd x)) (snd (snd x))))) l s.
