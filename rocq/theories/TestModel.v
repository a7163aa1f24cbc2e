(** Model of the helpers for tests in the library's public headers: include/pion/test/unit_test.hpp:42-202 and 252-348. A file is [None] if it
    cannot be opened, otherwise its bytes. std::istream is modelled as the standard has it: [getline] and [read] are given the bytes not read
    yet and give whether the stream is still good, the characters stored, [gcount] and the bytes left. Errors of reading are left out. *)
From Coq Require Import String ZArith List Bool.
From Verif Require Import Base HttpModel Threads Digits.
Import ListNotations.

(** the characters before the next newline, and what follows it if there is one; for std::getline, unit_test.hpp:274 *)
Fixpoint take_line (s : list Z) : list Z * option (list Z) :=
  match s with
  | [] => ([], None)
  | c :: s' => if c =? 10 then ([], Some s') else let (l, r) := take_line s' in (c :: l, r)
  end.
(** std::getline(stream, string): fails if no character is extracted; unit_test.hpp:274 *)
Definition std_getline (s : list Z) : option (list Z * list Z) :=
  match s with
  | [] => None
  | _ => let (l, r) := take_line s in Some (l, match r with Some s' => s' | None => [] end)
  end.
(** unit_test.hpp:274-278; every turn takes at least one byte, so [fuel] is the number of bytes plus one *)
Fixpoint read_loop (fuel : nat) (s : list Z) : list (list Z) :=
  match fuel with
  | O => []
  | S f =>
    match std_getline s with
    | None => []
    | Some (l, s') =>
      let one := trim l in
      let rest := read_loop f s' in
      match one with c :: _ => if c =? ch "#" then rest else one :: rest | [] => rest end
    end
  end.
(** unit_test.hpp:265-284 *)
Definition read_lines_from_file (f : option (list Z)) : option (list (list Z)) :=
  match f with None => None | Some s => Some (read_loop (S (List.length s)) s) end.

(** operator< of std::string (bytes compared as unsigned); used by std::list::sort, unit_test.hpp:295-296 *)
Fixpoint str_ltb (a b : list Z) : bool :=
  match a, b with
  | [], [] => false
  | [], _ :: _ => true
  | _ :: _, [] => false
  | x :: a', y :: b' => (x <? y) || ((x =? y) && str_ltb a' b')
  end.
(** std::list::sort, as insertion of one element after those not greater; unit_test.hpp:295-296 *)
Fixpoint list_insert (x : list Z) (l : list (list Z)) : list (list Z) :=
  match l with [] => [x] | y :: l' => if str_ltb x y then x :: l else y :: list_insert x l' end.
(** std::list::sort; unit_test.hpp:295-296 (the library's is a merge sort) *)
Fixpoint list_sort (l : list (list Z)) : list (list Z) :=
  match l with [] => [] | x :: l' => list_insert x (list_sort l') end.
(** operator== of lists of strings; unit_test.hpp:299 *)
Fixpoint list_eqb (a b : list (list Z)) : bool :=
  match a, b with
  | [], [] => true
  | x :: a', y :: b' => str_eqb x y && list_eqb a' b'
  | _, _ => false
  end.
(** unit_test.hpp:288-300; [None]: BOOST_REQUIRE ended the test *)
Definition check_files_match (a b : option (list Z)) : option bool :=
  match read_lines_from_file a with
  | None => None
  | Some la =>
    match read_lines_from_file b with
    | None => None
    | Some lb => Some (list_eqb (list_sort la) (list_sort lb))
    end
  end.

(** what a read from a stream does: whether the stream is good after it, the characters stored, gcount(), the bytes left; unit_test.hpp:316-337 *)
Record got := mkgot { g_ok : bool; g_buf : list Z; g_count : nat; g_rest : list Z }.
(** istream::read(buf, n): good if [n] bytes were there; unit_test.hpp:329-335 *)
Definition is_read (n : nat) (s : list Z) : got :=
  mkgot (Nat.leb n (List.length s)) (firstn n s) (Nat.min n (List.length s)) (skipn n s).
(** istream::getline(buf, n): at the end of the file with nothing stored it fails; a newline is taken, not stored; with [n]-1 characters stored
    and neither the end nor a newline next it fails; unit_test.hpp:316-326 *)
Definition is_getline (n : nat) (s : list Z) : got :=
  match s with
  | [] => mkgot false [] 0 []
  | _ =>
    let (l, r) := take_line s in
    if Nat.leb (S (List.length l)) n then
      match r with
      | Some s' => mkgot true l (S (List.length l)) s'
      | None => mkgot true l (List.length l) []
      end
    else mkgot false (firstn (n - 1) s) (n - 1) (skipn (n - 1) s)
  end.
(** the C string in a buffer: what is before the first zero; unit_test.hpp:254 and 321-323 *)
Fixpoint c_str (b : list Z) : list Z := match b with [] => [] | c :: b' => if c =? 0 then [] else c :: c_str b' end.
(** the loop of unit_test.hpp:254-259 on the characters from the last to the first *)
Fixpoint trim_back (r : list Z) : list Z := match r with c :: r' => if (c =? 10) || (c =? 13) then trim_back r' else r | [] => [] end.
(** unit_test.hpp:253-261, as a C string *)
Definition trim_eol (b : list Z) : list Z := rev (trim_back (rev (c_str b))).
(** memcmp(a, b, n) != 0, the first [n] bytes of the buffers; unit_test.hpp:323, 332 and 340 *)
Definition mem_differ (a b : list Z) (n : nat) : bool := negb (str_eqb (firstn n a) (firstn n b)).
(** unit_test.hpp:338-341 *)
Definition last_check (a b : got) : bool :=
  if negb (Nat.eqb (g_count a) (g_count b)) then false else negb (mem_differ (g_buf a) (g_buf b) (g_count a)).
(** unit_test.hpp:316-327 and 338-347; [fuel] as in [read_loop] *)
Fixpoint lines_loop (n fuel : nat) (a b : list Z) : bool :=
  match fuel with
  | O => false
  | S f =>
    let ga := is_getline n a in
    let gb := is_getline n b in
    if g_ok ga then
      if negb (g_ok gb) then false
      else
        let ta := trim_eol (g_buf ga) in
        let tb := trim_eol (g_buf gb) in
        if negb (Nat.eqb (List.length ta) (List.length tb)) then false
        else if mem_differ ta tb (List.length ta) then false
        else lines_loop n f (g_rest ga) (g_rest gb)
    else if g_ok gb then false
    else last_check ga gb
  end.
(** unit_test.hpp:329-347; [fuel] as in [read_loop] *)
Fixpoint bytes_loop (n fuel : nat) (a b : list Z) : bool :=
  match fuel with
  | O => false
  | S f =>
    let ga := is_read n a in
    let gb := is_read n b in
    if g_ok ga then
      if negb (g_ok gb) then false
      else if mem_differ (g_buf ga) (g_buf gb) n then false
      else bytes_loop n f (g_rest ga) (g_rest gb)
    else if g_ok gb then false
    else last_check ga gb
  end.
(** unit_test.hpp:311 *)
Definition BUF_SIZE : nat := Z.to_nat 4096.
(** unit_test.hpp:302-348; [None]: BOOST_REQUIRE ended the test *)
Definition check_files_exact_match (a b : option (list Z)) (ignore_line_endings : bool) : option bool :=
  match a with
  | None => None
  | Some sa =>
    match b with
    | None => None
    | Some sb => Some (if ignore_line_endings then lines_loop BUF_SIZE (S (List.length sa)) sa sb else bytes_loop BUF_SIZE (S (List.length sa)) sa sb)
    end
  end.

(** what a thread asks of the formatter: log_entry_start with the kind of entry, the file and the line, log_entry_value, log_entry_finish; unit_test.hpp:136-178 *)
Inductive call := LStart (kind : nat) (file : list Z) (line : Z) | LValue (v : list Z) | LFinish.
(** the output and the members of the formatter; unit_test.hpp:192-201 *)
Record fmt := mkfmt { f_out : list Z; f_busy : bool; f_tag : list Z }.
(** unit_test.hpp:49-51 *)
Definition fmt_new : fmt := mkfmt [] false [].
(** the escapes of Boost.Test's attr_value; Boost, used at unit_test.hpp:149 *)
Definition xml_escape (c : Z) : list Z :=
  if c =? 60 then bs "&lt;" else if c =? 62 then bs "&gt;" else if c =? 38 then bs "&amp;" else if c =? 39 then bs "&apos;" else if c =? 34 then bs "&quot;" else [c].
(** an attribute with its value in double quotes (code 34); Boost, used at unit_test.hpp:149-150 *)
Definition attr_value (v : list Z) : list Z := bs "=" ++ [34] ++ v ++ [34].
(** unit_test.hpp:146-147 *)
Definition xml_tag (kind : nat) : list Z := nth kind [bs "Info"; bs "Message"; bs "Warning"; bs "Error"; bs "FatalError"] [].
(** unit_test.hpp:144-153, once no entry is in progress *)
Definition entry_start (kind : nat) (file : list Z) (line : Z) (f : fmt) : fmt :=
  let tag := xml_tag kind in
  mkfmt (f_out f ++ bs "<" ++ tag ++ bs " file" ++ attr_value (concat (map xml_escape file)) ++ bs " line" ++ attr_value (print_dec line) ++ bs "><![CDATA[") true tag.
(** unit_test.hpp:158-165 *)
Definition entry_value (v : list Z) (f : fmt) : fmt := if f_busy f then mkfmt (f_out f ++ v) (f_busy f) (f_tag f) else f.
(** unit_test.hpp:169-178, without the threads that are woken *)
Definition entry_finish (f : fmt) : fmt := if f_busy f then mkfmt (f_out f ++ bs "]]></" ++ f_tag f ++ bs ">" ++ [10]) false [] else f.
(** a thread: the calls it has still to make, and whether it waits on m_entry_complete; unit_test.hpp:141-143 *)
Record tester := mktester { t_calls : list call; t_asleep : bool }.
(** the formatter and the threads; unit_test.hpp:136-178 *)
Record tlog := mktlog { x_fmt : fmt; x_threads : list tester }.
(** notify_all; unit_test.hpp:176 *)
Definition wake_all (l : list tester) : list tester := map (fun t => mktester (t_calls t) false) l.
(** one thread takes the mutex and holds it until it returns or waits, or a thread is woken without a reason; unit_test.hpp:140-143, 160 and 171 *)
Inductive tact := TRun (i : nat) | TWake (i : nat).
(** what one thread does while it has the mutex; unit_test.hpp:136-178 *)
Definition t_step (a : tact) (x : tlog) : tlog :=
  match a with
  | TWake i =>
    match nth_error (x_threads x) i with
    | Some t => mktlog (x_fmt x) (set_nth i (mktester (t_calls t) false) (x_threads x))
    | None => x
    end
  | TRun i =>
    match nth_error (x_threads x) i with
    | Some (mktester (c :: rest) false) =>
      match c with
      | LStart kind file line =>
        if f_busy (x_fmt x) then mktlog (x_fmt x) (set_nth i (mktester (c :: rest) true) (x_threads x))
        else mktlog (entry_start kind file line (x_fmt x)) (set_nth i (mktester rest false) (x_threads x))
      | LValue v => mktlog (entry_value v (x_fmt x)) (set_nth i (mktester rest false) (x_threads x))
      | LFinish =>
        let l := set_nth i (mktester rest false) (x_threads x) in
        mktlog (entry_finish (x_fmt x)) (if f_busy (x_fmt x) then wake_all l else l)
      end
    | _ => x
    end
  end.
(** any number of such steps; unit_test.hpp:136-178 *)
Definition t_run (l : list tact) (x : tlog) : tlog := fold_left (fun x a => t_step a x) l x.
(** threads that are to make the given calls; unit_test.hpp:136-178 *)
Definition t_begin (progs : list (list call)) : tlog := mktlog fmt_new (map (fun p => mktester p false) progs).
