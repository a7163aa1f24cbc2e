(** Model of the schedulers with any number of threads: src/scheduler.cpp, include/pion/scheduler.hpp. [one] chooses
    one_to_one_scheduler; otherwise single_service_scheduler. *)
From Coq Require Import ZArith List Bool.
From Verif Require Import Base Runs Threads.
Import ListNotations.
Local Open Scope nat_scope.

(** What a thread has to do. [GUser]: code of the user, a work item if a [GRun] is below it; it may call any function of the
    scheduler. [GAdd], [GAddInc]: add_active_user before the test of the flag and before the lock. [GStartup add]: startup, called by add_active_user
    or not. [GShutLoop]: shutdown before
    the test of the number of users, [GShutWait]: waiting for the condition, [GShutWoken]: waiting for the mutex after that;
    [GShutJoin ws]: stop_threads with the threads [ws] still to be joined. [GPost], [GEnqueue k g]: post before get_io_service, and with the
    service it returned, of the [g]th pool. [GWork k]: process_service_work with service [k] before the test of the flag, [GRun k]: in
    io_service::run. scheduler.cpp:27-175 *)
Inductive gframe :=
| GAdd | GAddInc | GRemove | GStartup (add : bool) | GShutdown | GShutLoop | GShutWait | GShutWoken | GShutJoin (ws : list nat) | GJoin | GJoinWait
| GPost | GEnqueue (k g : nat) | GWork (k : nat) | GRun (k : nat) | GUser.

(** [g_workers]: m_thread_pool, threads by number; [g_down]: the services are stopped (between stop_services and finish_services);
    [g_queue]: the work items of the services, with their numbers; [g_items]: the number of the next item; [g_next]:
    m_next_service; [g_pools]: how often m_service_pool was cleared; [g_num]: m_num_threads. scheduler.hpp:174-192, 239, 276-279, 353-356 *)
Record gsh := mkg { g_mutex : option nat; g_running : bool; g_users : Z; g_workers : list nat; g_down : bool;
  g_queue : list (nat * nat); g_items : nat; g_next : nat; g_pools : nat; g_num : nat }.
(** scheduler.hpp:174-192, 239, 276-279, 353-356 *)
Definition gstate := (gsh * list (list gframe))%type.
(** scheduler.hpp:39-43, 251-254, 291-294; DEFAULT_NUM_THREADS is 8 (scheduler.cpp:19), any number here *)
Definition g_init (num : nat) : gstate := (mkg None false 0%Z [] false [] 0 0 0 num, []).

(** What is seen: add_active_user and remove_active_user take effect; the scheduler starts; shutdown begins to stop the
    threads; shutdown has stopped them; join returns; get_io_service returns service [k]; item [id] is posted, run, destroyed without being run; a service
    outside the pool or of a pool that was cleared is used. scheduler.cpp:27-117, scheduler.hpp:88-90 *)
Inductive gev := SAdded | SRemoved | SStarted | SStopping | SDown | SJoined | SChosen (k : nat) | SPosted (id : nat) | SRun (id : nat) | SDropped (id : nat) | SBad.
(** scheduler.cpp:27-117, scheduler.hpp:88-90 *)
Inductive gact := AReturn | AThrow | AAdd | ARemove | AStartup | AShutdown | AJoin | APost.
(** A step: thread [i] goes on; in user code with an action; takes item [id] from the queue; a waiting thread wakes up without being
    notified; a new thread of the user; set_num_threads. scheduler.cpp:27-117, scheduler.hpp:88-90 *)
Inductive glab := LThread (i : nat) | LUser (i : nat) (a : gact) | LItem (i id : nat) | LSpurious (i : nat) | LMain | LNum (n : nat).

(** boost::mutex, used at scheduler.cpp:30, 70, 91, 97, 126, 151 *)
Definition unlocked (g : gsh) : bool := match g_mutex g with None => true | Some _ => false end.
(** boost::mutex, used at scheduler.cpp:30, 70, 91, 97, 126, 151 *)
Definition set_mutex (g : gsh) (m : option nat) : gsh :=
  mkg m (g_running g) (g_users g) (g_workers g) (g_down g) (g_queue g) (g_items g) (g_next g) (g_pools g) (g_num g).
(** assignment to [m_active_users], scheduler.cpp:92, 98 *)
Definition set_users (g : gsh) (u : Z) : gsh :=
  mkg (g_mutex g) (g_running g) u (g_workers g) (g_down g) (g_queue g) (g_items g) (g_next g) (g_pools g) (g_num g).
(** the threads waiting for m_no_more_active_users or for m_scheduler_has_stopped; scheduler.cpp:52, 64, 99 *)
Definition wake_users (f : gframe) : gframe := match f with GShutWait => GShutWoken | _ => f end.
(** scheduler.cpp:52, 64, 99 *)
Definition wake_join (f : gframe) : gframe := match f with GJoinWait => GJoin | _ => f end.
(** scheduler.cpp:52, 64, 99 *)
Definition same (f : gframe) : gframe := f.

(** what a step of a thread does: the shared state, the new stack, which threads are woken, the threads started, what is seen; one step of a function of scheduler.cpp:27-117 *)
Record geff := mkeff { e_sh : gsh; e_stack : list gframe; e_wake : gframe -> gframe; e_new : list (list gframe); e_ev : list gev }.
(** one step of a function of scheduler.cpp:27-117 *)
Definition quietly (g : gsh) (st : list gframe) : option geff := Some (mkeff g st same [] []).

(** scheduler.cpp:123-143, 148-175 *)
Definition do_startup (one : bool) (g : gsh) (n : nat) (st : list gframe) : geff :=
  if g_running g then mkeff g st same [] []
  else mkeff (mkg (g_mutex g) true (g_users g) (g_workers g ++ seq n (g_num g)) (g_down g) (g_queue g) (g_items g) (g_next g) (g_pools g) (g_num g))
         st same (map (fun k => [GWork (if one then k else 0)]) (seq 0 (g_num g))) [SStarted].
(** scheduler.cpp:36-45. stop_threads compares with a thread object made by its default constructor (scheduler.hpp:219-226), so it
    joins every thread of the pool, also the calling one: that never ends (boost may throw instead). *)
Definition do_shut_loop (g : gsh) (st : list gframe) : geff :=
  if (g_users g >? 0)%Z then mkeff (set_mutex g None) (GShutWait :: st) same [] []
  else mkeff (mkg (g_mutex g) false (g_users g) (g_workers g) true (g_queue g) (g_items g) (g_next g) (g_pools g) (g_num g))
         (GShutJoin (g_workers g) :: st) same [] [SStopping].
(** finish_services, finish_threads, the notification and the release of the mutex: scheduler.cpp:46-53, 59-65, scheduler.hpp:231,
    272, 338. The single service keeps its items. *)
Definition do_shut_end (one : bool) (g : gsh) (st : list gframe) : geff :=
  mkeff (mkg None (g_running g) (g_users g) [] false (if one then [] else g_queue g) (g_items g) (g_next g) (if one then S (g_pools g) else g_pools g) (g_num g))
    st wake_join [] ((if one then map (fun x => SDropped (snd x)) (g_queue g) else []) ++ [SDown]).
(** get_io_service of one_to_one_scheduler: scheduler.hpp:300-310 *)
Definition do_choose (g : gsh) (st : list gframe) : geff :=
  let k := if Nat.leb (g_num g) (S (g_next g)) then 0 else S (g_next g) in
  let g' := mkg (g_mutex g) (g_running g) (g_users g) (g_workers g) (g_down g) (g_queue g) (g_items g) k (g_pools g) (g_num g) in
  if Nat.ltb k (g_num g) then mkeff g' (GEnqueue k (g_pools g) :: st) same [] [SChosen k] else mkeff g' st same [] [SBad].

(** thread [i] of [th], whose innermost frame is [f], goes on; one step of a function of scheduler.cpp:27-117 *)
Definition frame_step (one : bool) (g : gsh) (th : list (list gframe)) (i : nat) (f : gframe) (st : list gframe) : option geff :=
  match f with
  | GAdd => (* scheduler.cpp:90, the flag is read without the mutex *) quietly g (if g_running g then GAddInc :: st else GStartup true :: st)
  | GAddInc => (* 91-92 *) if unlocked g then Some (mkeff (set_users g (wrap32 (g_users g + 1)%Z)) st same [] [SAdded]) else None
  | GRemove => (* 97-99 *)
    if unlocked g then
      let u := wrap32 (g_users g - 1)%Z in Some (mkeff (set_users g u) st (if (u =? 0)%Z then wake_users else same) [] [SRemoved])
    else None
  | GStartup add => if unlocked g then Some (do_startup one g (length th) (if add then GAddInc :: st else st)) else None
  | GShutdown => (* 30-32, 54-58 *)
    if unlocked g then
      if g_running g then quietly (set_mutex g (Some i)) (GShutLoop :: st)
      else quietly (mkg (Some i) false (g_users g) (g_workers g) true (g_queue g) (g_items g) (g_next g) (g_pools g) (g_num g)) (GShutJoin (g_workers g) :: st)
    else None
  | GShutLoop => Some (do_shut_loop g st)
  | GShutWait => None
  | GShutWoken => if unlocked g then quietly (set_mutex g (Some i)) (GShutLoop :: st) else None
  | GShutJoin (w :: ws) => (* scheduler.hpp:220-226 *) match nth_error th w with Some [] => quietly g (GShutJoin ws :: st) | _ => None end
  | GShutJoin [] => Some (do_shut_end one g st)
  | GJoin => (* scheduler.cpp:70-74 *) if unlocked g then if g_running g then quietly g (GJoinWait :: st) else Some (mkeff g st same [] [SJoined]) else None
  | GJoinWait => None
  | GPost => (* scheduler.hpp:88-90, 260 *) if one then if unlocked g then Some (do_choose g st) else None else quietly g (GEnqueue 0 (g_pools g) :: st)
  | GEnqueue k p =>
    if Nat.eqb p (g_pools g) then
      Some (mkeff (mkg (g_mutex g) (g_running g) (g_users g) (g_workers g) (g_down g) (g_queue g ++ [(k, g_items g)]) (S (g_items g)) (g_next g) (g_pools g) (g_num g))
              st same [] [SPosted (g_items g)])
    else Some (mkeff g st same [] [SBad])
  | GWork k => (* scheduler.cpp:109-111 *) quietly g (if g_running g then GRun k :: GWork k :: st else st)
  | GRun k => (* run returns because the service is stopped; the timer of keep_running (77-86) keeps it from running out of work *)
    if g_down g then quietly g st else None
  | GUser => None
  end.
(** the exception is caught in process_service_work (scheduler.cpp:112-116) *)
Fixpoint unwind (st : list gframe) : option (list gframe) :=
  match st with
  | [] => None
  | GWork k :: st' => Some (GWork k :: st')
  | _ :: st' => unwind st'
  end.
(** what code of the user may do with scheduler.hpp:57-90 *)
Definition user_step (g : gsh) (a : gact) (st : list gframe) : option geff :=
  match a with
  | AReturn => quietly g st
  | AThrow => match unwind st with Some st' => quietly g st' | None => None end
  | AAdd => quietly g (GAdd :: GUser :: st)
  | ARemove => quietly g (GRemove :: GUser :: st)
  | AStartup => quietly g (GStartup false :: GUser :: st)
  | AShutdown => quietly g (GShutdown :: GUser :: st)
  | AJoin => quietly g (GJoin :: GUser :: st)
  | APost => quietly g (GPost :: GUser :: st)
  end.
(** io_service::run takes an item of the service: the queue of the service may be in any order; used at scheduler.cpp:111 *)
Definition item_step (g : gsh) (k id : nat) (st : list gframe) : option geff :=
  if negb (g_down g) && existsb (fun x => Nat.eqb (fst x) k && Nat.eqb (snd x) id) (g_queue g) then
    Some (mkeff (mkg (g_mutex g) (g_running g) (g_users g) (g_workers g) (g_down g) (filter (fun x => negb (Nat.eqb (snd x) id)) (g_queue g)) (g_items g) (g_next g) (g_pools g) (g_num g))
            (GUser :: GRun k :: st) same [] [SRun id])
  else None.
(** the threads after a step; scheduler.cpp:36-66 *)
Definition apply (th : list (list gframe)) (i : nat) (e : geff) : gstate * list gev :=
  ((e_sh e, map (map (e_wake e)) (set_nth i (e_stack e) th) ++ e_new e), e_ev e).
(** the innermost frame of a thread and what can be done with it; scheduler.cpp:27-117 *)
Definition top_step (one : bool) (g : gsh) (th : list (list gframe)) (l : glab) (i : nat) (f : gframe) (st : list gframe) : option geff :=
  match l, f with
  | LThread _, _ => frame_step one g th i f st
  | LUser _ a, GUser => user_step g a st
  | LItem _ id, GRun k => item_step g k id st
  | LSpurious _, GShutWait => quietly g (GShutWoken :: st)
  | LSpurious _, GJoinWait => quietly g (GJoin :: st)
  | _, _ => None
  end.
(** scheduler.cpp:27-117 *)
Definition g_step (one : bool) (s : gstate) (l : glab) : option (gstate * list gev) :=
  let (g, th) := s in
  let go i := match nth_error th i with
              | Some (f :: st) => match top_step one g th l i f st with Some e => Some (apply th i e) | None => None end
              | _ => None end in
  match l with
  | LThread i => go i
  | LUser i _ => go i
  | LItem i _ => go i
  | LSpurious i => go i
  | LMain => Some ((g, th ++ [[GUser]]), [])
  | LNum n => Some ((mkg (g_mutex g) (g_running g) (g_users g) (g_workers g) (g_down g) (g_queue g) (g_items g) (g_next g) (g_pools g) n, th), [])
  end.
