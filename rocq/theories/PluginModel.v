(** Model of plug-in libraries and the objects made with them: src/plugin.cpp, include/pion/plugin.hpp, include/pion/plugin_manager.hpp. *)
From Coq Require Import String ZArith List Bool.
From Verif Require Import Base SMap Threads.
Import ListNotations.
Local Open Scope string_scope.
Local Open Scope list_scope.
Local Open Scope nat_scope.

(* ------------------------------------------------------------------ libraries *)

(** plugin::data_type (plugin.hpp:139-170): a name, whether it is linked statically (m_lib_handle is NULL), m_references (unsigned long, 64 bit);
    [d_freed]: deleted *)
Record pdata := mkd { d_name : list Z; d_static : bool; d_refs : Z; d_freed : bool }.
(** a plugin object: destroyed, m_plugin_data NULL, or pointing to a data object; plugin.hpp:289-292 *)
Inductive handle := HGone | HClosed | HOpen (k : nat).
(** [p_datas]: all data objects ever made, by number; [p_map]: m_plugin_map (plugin.hpp:202-214); [p_hung]: a thread waits for the mutex it
    holds. Handles are used by one thread at a time; the mutex makes each function atomic. *)
Record plib := mkp { p_datas : list pdata; p_map : smap nat; p_handles : list handle; p_hung : bool }.
(** plugin.hpp:202-214, plugin.cpp:42-46: nothing is loaded *)
Definition p_init : plib := mkp [] [] [] false.
(** what is seen: a shared library is loaded and unloaded; a function of it is called; an exception; a thread waits for ever; use of a deleted object; plugin.cpp:85-177, 254-301, plugin.hpp:326-347 *)
Inductive pev := ELoad (k : nat) | EUnload (k : nat) | EUsed (k : nat) | EThrow | EHang | EBad.

(** assignment to [m_plugin_data], plugin.hpp:292 *)
Definition set_handle (s : plib) (i : nat) (h : handle) : plib := mkp (p_datas s) (p_map s) (set_nth i h (p_handles s)) (p_hung s).
(** the counter changes, plugin.cpp:95, 136, 145, 175 *)
Definition add_ref (s : plib) (k : nat) : plib :=
  match nth_error (p_datas s) k with
  | Some d => mkp (set_nth k (mkd (d_name d) (d_static d) (wrap64 (d_refs d + 1)) (d_freed d)) (p_datas s)) (p_map s) (p_handles s) (p_hung s)
  | None => s
  end.
(** release_data: plugin.cpp:139-166 *)
Definition release_data (s : plib) (i : nat) : plib * list pev :=
  match nth_error (p_handles s) i with
  | Some (HOpen k) =>
    match nth_error (p_datas s) k with
    | Some d =>
      if d_freed d then (set_handle s i HClosed, [EBad])
      else
        let r := wrap64 (d_refs d - 1) in
        if (r =? 0)%Z && negb (d_static d)
        then (set_handle (mkp (set_nth k (mkd (d_name d) (d_static d) r true) (p_datas s)) (sm_erase (p_map s) (d_name d)) (p_handles s) (p_hung s)) i HClosed, [EUnload k])
        else (set_handle (mkp (set_nth k (mkd (d_name d) (d_static d) r false) (p_datas s)) (p_map s) (p_handles s) (p_hung s)) i HClosed, [])
    | None => (s, [EBad])
    end
  | _ => (s, [])
  end.
(** grab_data: plugin.cpp:168-177; the source is read after the release *)
Definition grab_data (s : plib) (i j : nat) : plib * list pev :=
  let (s1, e) := release_data s i in
  match nth_error (p_handles s1) j with
  | Some (HOpen k) => (add_ref (set_handle s1 i (HOpen k)) k, e)
  | _ => (set_handle s1 i HClosed, e)
  end.
(** open_file: plugin.cpp:109-137; [base]: the name of the file without directory and extension (303-306), [loads]: whether open_plugin (254-301) succeeds *)
Definition open_file (s : plib) (i : nat) (base : list Z) (loads : bool) : plib * list pev :=
  let (s1, e) := release_data s i in
  match sm_find (p_map s1) base with
  | Some k => (add_ref (set_handle s1 i (HOpen k)) k, e)
  | None =>
    if loads then
      let k := length (p_datas s1) in
      (set_handle (mkp (p_datas s1 ++ [mkd base false 1 false]) (sm_insert (p_map s1) base k) (p_handles s1) (p_hung s1)) i (HOpen k), e ++ [ELoad k])
    else (s1, e ++ [EThrow])
  end.
(** open: plugin.cpp:85-107. release_data is called with the mutex held and locks it again if the handle is open; boost::mutex is not recursive.
    [found]: the file found in the directories, if any, by its name, and whether it loads *)
Definition open_name (s : plib) (i : nat) (name : list Z) (found : option (list Z * bool)) : plib * list pev :=
  match sm_find (p_map s) name with
  | Some k =>
    match nth_error (p_handles s) i with
    | Some (HOpen _) => (mkp (p_datas s) (p_map s) (p_handles s) true, [EHang])
    | _ => (add_ref (set_handle s i (HOpen k)) k, [])
    end
  | None =>
    match found with
    | None => (s, [EThrow])
    | Some (base, loads) => open_file s i base loads
    end
  end.
(** create and destroy call a function of the library: plugin.hpp:326-347 *)
Definition use (s : plib) (i : nat) : list pev :=
  match nth_error (p_handles s) i with
  | Some (HOpen k) => match nth_error (p_datas s) k with Some d => if d_freed d then [EBad] else [EUsed k] | None => [EBad] end
  | _ => [EThrow]
  end.
(** plugin.hpp:90, 115-132, 173-180, 316-347 *)
Inductive pop := PNew | PCopy (j : nat) | PAssign (i j : nat) | PClose (i : nat) | PDestroy (i : nat) | PUse (i : nat)
| POpen (i : nat) (name : list Z) (found : option (list Z * bool)) | POpenFile (i : nat) (base : list Z) (loads : bool) | PStatic (name : list Z).
(** plugin.hpp:93 *)
Definition alive (s : plib) (i : nat) : bool := match nth_error (p_handles s) i with Some HGone | None => false | _ => true end.
(** plugin.cpp:85-177, plugin.hpp:90-132, 173-180, 316-347 *)
Definition p_step (s : plib) (o : pop) : option (plib * list pev) :=
  if p_hung s then None else
  match o with
  | PNew => (* plugin.hpp:174 *) Some (mkp (p_datas s) (p_map s) (p_handles s ++ [HClosed]) (p_hung s), [])
  | PCopy j => (* 177 *) if alive s j then Some (grab_data (mkp (p_datas s) (p_map s) (p_handles s ++ [HClosed]) (p_hung s)) (length (p_handles s)) j) else None
  | PAssign i j => (* 180, 323 *) if alive s i && alive s j then Some (grab_data s i j) else None
  | PClose i => (* 132 *) if alive s i then Some (release_data s i) else None
  | PDestroy i => (* 90 *) if alive s i then let (s1, e) := release_data s i in Some (set_handle s1 i HGone, e) else None
  | PUse i => if alive s i then Some (s, use s i) else None
  | POpen i name found => if alive s i then Some (open_name s i name found) else None
  | POpenFile i base loads => if alive s i then Some (open_file s i base loads) else None
  | PStatic name => (* add_static_entry_point: plugin.cpp:394-411 *)
    match sm_find (p_map s) name with
    | Some _ => Some (s, [])
    | None => Some (mkp (p_datas s ++ [mkd name true 0 false]) (sm_insert (p_map s) name (length (p_datas s))) (p_handles s) (p_hung s), [])
    end
  end.

(* ------------------------------------------------------------------ an instance pointer *)

(** plugin_instance_ptr (plugin.hpp:354-406): m_plugin_ptr is handle 0, [i_ptr] is m_instance_ptr, [i_next] numbers the instances *)
Record ist := mkist { i_lib : plib; i_ptr : option nat; i_next : nat }.
(** plugin.hpp:361 *)
Definition i_init : ist := mkist (mkp [] [] [HClosed] false) None 0.
(** plugin.hpp:354-406 *)
Inductive iev := ICreated (n : nat) | IDestroyed (n : nat) | ILib (e : pev).
(** plugin.hpp:354-406 *)
Inductive iop := ICreate (name : list Z) (found : option (list Z * bool)) | IReset | IDelete | IOther (o : pop).
(** reset: plugin.hpp:367-371; [true] if it returns *)
Definition i_reset (s : ist) : list iev * bool :=
  match i_ptr s with
  | Some n => match use (i_lib s) 0 with [EUsed k] => ([ILib (EUsed k); IDestroyed n], true) | e => (map ILib e, false) end
  | None => ([], true)
  end.
(** the operations of other users of the libraries; plugin.hpp:90-132, 173-180, 316-347 *)
Definition others (o : pop) : bool :=
  match o with
  | PNew | PStatic _ => true
  | PCopy j => true
  | PAssign i _ | PClose i | PDestroy i | PUse i | POpen i _ _ | POpenFile i _ _ => negb (Nat.eqb i 0)
  end.
(** plugin.cpp:85-137: whether the call throws *)
Definition throws (e : list pev) : bool := existsb (fun x => match x with EThrow | EHang => true | _ => false end) e.
(** plugin.hpp:354-406 *)
Definition i_step (s : ist) (o : iop) : option (ist * list iev) :=
  if p_hung (i_lib s) || negb (alive (i_lib s) 0) then None else
  match o with
  | IReset => Some (s, fst (i_reset s))
  | IDelete => (* 364; then m_plugin_ptr is destroyed *)
    match p_step (i_lib s) (PDestroy 0) with
    | Some (l, e) => Some (mkist l (i_ptr s) (i_next s), fst (i_reset s) ++ map ILib e)
    | None => None
    end
  | ICreate name found => (* 374-378 *)
    let (e, ok) := i_reset s in
    if ok then
      let (l, e1) := open_name (i_lib s) 0 name found in
      if throws e1 then Some (mkist l (i_ptr s) (i_next s), e ++ map ILib e1)
      else match use l 0 with
           | [EUsed k] => Some (mkist l (Some (i_next s)) (S (i_next s)), e ++ map ILib e1 ++ [ILib (EUsed k); ICreated (i_next s)])
           | e2 => Some (mkist l (i_ptr s) (i_next s), e ++ map ILib e1 ++ map ILib e2)
           end
    else Some (s, e)
  | IOther o => if others o then match p_step (i_lib s) o with Some (l, e) => Some (mkist l (i_ptr s) (i_next s), map ILib e) | None => None end else None
  end.

(* ------------------------------------------------------------------ the manager *)

(** plugin_manager: [m_map]: the objects by identifier, each with the library held with it, if any (plugin_manager.hpp:168-175); [m_pend]: calls of load
    after the test for a duplicate (243-251) and before the insertion (254-256); [m_next] numbers the objects. *)
Record mst := mkm { m_map : smap (nat * option nat); m_pend : list (list Z * nat * nat); m_next : nat }.
(** plugin_manager.hpp:168-181 *)
Definition m_init : mst := mkm [] [] 0.
(** an object comes into being, made by library [h] or by the user; it is destroyed by the library or by delete; get or find returns it; exception; plugin_manager.hpp:49-334 *)
Inductive mev := GMade (n : nat) (h : option nat) | GDestroyed (n : nat) (h : option nat) | GGot (n : nat) | GNone | GThrow.
(** plugin_manager.hpp:49-334 *)
Inductive mop := MAdd (id : list Z) | MLoad (id : list Z) (lib : nat) | MLoaded (k : nat) | MReplace (id : list Z) | MRemove (id : list Z) | MClear | MGet (id : list Z) | MFind (res : list Z).
(** find: plugin_manager.hpp:295-334; [l]: the entries from upper_bound down to begin *)
Fixpoint find_loop {A} (res : list Z) (l : smap A) : option (list Z * A) :=
  match l with
  | [] => None
  | (id, x) :: l' =>
    if is_prefix id res then
      if (zlen res =? zlen id)%Z || match nth_error res (length id) with Some c => (c =? ch "/")%Z | None => false end then Some (id, x) else find_loop res l'
    else match l' with
         | (id', _) :: _ => if (zlen id' <? zlen id)%Z then find_loop res l' else None
         | [] => None
         end
  end.
(** plugin_manager.hpp:295-334 *)
Definition pm_find {A} (m : smap A) (res : list Z) : option (list Z * A) := find_loop res (sm_down m res).
(** plugin_manager.hpp:188-334, 386-402 *)
Definition m_step (s : mst) (o : mop) : option (mst * list mev) :=
  match o with
  | MAdd id => (* 187-195 *)
    Some (mkm (sm_insert (m_map s) id (m_next s, None)) (m_pend s) (S (m_next s)), [GMade (m_next s) None])
  | MLoad id lib => (* 238-251 *)
    match sm_find (m_map s) id with
    | Some _ => Some (s, [GThrow])
    | None => Some (mkm (m_map s) (m_pend s ++ [(id, m_next s, lib)]) (S (m_next s)), [GMade (m_next s) (Some lib)])
    end
  | MLoaded k => (* 253-258 *)
    match nth_error (m_pend s) k with
    | Some (id, n, lib) =>
      Some (mkm (sm_insert (m_map s) id (n, Some lib)) (firstn k (m_pend s) ++ skipn (S k) (m_pend s)) (m_next s), [])
    | None => None
    end
  | MReplace id => (* 212-226 *)
    match sm_find (m_map s) id with
    | Some (n, h) => Some (mkm (sm_set (m_map s) id (m_next s, h)) (m_pend s) (S (m_next s)), [GMade (m_next s) None; GDestroyed n h])
    | None => Some (mkm (m_map s) (m_pend s) (m_next s), [GThrow])
    end
  | MRemove id => (* 197-210 *)
    match sm_find (m_map s) id with
    | Some (n, h) => Some (mkm (sm_erase (m_map s) id) (m_pend s) (m_next s), [GDestroyed n h])
    | None => Some (s, [GThrow])
    end
  | MClear => (* 48-52, 385-402, also the destructor 173 *)
    Some (mkm [] (m_pend s) (m_next s), map (fun x => GDestroyed (fst (snd x)) (snd (snd x))) (m_map s))
  | MGet id => (* 261-281 *) Some (s, [match sm_find (m_map s) id with Some (n, _) => GGot n | None => GNone end])
  | MFind res => Some (s, [match pm_find (m_map s) res with Some (_, (n, _)) => GGot n | None => GNone end])
  end.
