(** api/DocumentManager.cpp, first as functions executed one at a time, then as
    threads that interleave between single accesses and share one mutex.

    What the manager only calls is a parameter: XML parsing and
    [Document::fromXDoc], [impl::ScoreWriter], [impl::ScoreReader],
    [Document::toXDoc] with saving. Each may also throw or be undefined.
    [std::shared_ptr] copies returned by [getDocument] are values here. *)
From Coq Require Import ZArith List Bool.
From Verif Require Import Model.Base Model.Text Model.Conversions.
Import ListNotations.
Open Scope Z_scope.

Section Manager.
  Context {A M Hd V PI Input Data Output : Type}.
  Local Notation doc := (document A M Hd V PI).

  (** What DocumentManager uses. *)
  Record services := Services {
    sv_attrs : A;                                     (* MeasureAttributes() *)
    sv_music : M;                                     (* makeMusicDataGroup() *)
    sv_parse : Input -> outcome doc;                  (* XDoc::loadFile/loadStream and Document::fromXDoc *)
    sv_write : Data -> outcome (score_pw A M Hd V PI); (* ScoreWriter::getScorePartwise *)
    sv_is_timewise : Data -> bool;                    (* score.musicXmlType == "timewise" *)
    sv_read : score_pw A M Hd V PI -> outcome Data;   (* ScoreReader::getScoreData *)
    sv_set_timewise : Data -> Data;                   (* score.musicXmlType = "timewise" *)
    sv_no_data : Data;                                (* ScoreData{} *)
    sv_save : doc -> outcome Output                   (* Document::toXDoc, XDoc::saveFile/saveStream *)
  }.
  Context (sv : services).

  (** std::map<int, DocumentPtr>, api/DocumentManager.cpp:15. *)
  Definition doc_map := list (Z * doc).
  (** map::find. *)
  Definition m_find (id : Z) (m : doc_map) : option doc :=
    option_map snd (find (fun e => Z.eqb (fst e) id) m).
  (** map::erase. *)
  Definition m_erase (id : Z) (m : doc_map) : doc_map := filter (fun e => negb (Z.eqb (fst e) id)) m.
  (** myMap[id] = value. *)
  Definition m_set (id : Z) (d : doc) (m : doc_map) : doc_map := (id, d) :: m_erase id m.

  (** DocumentManager::Impl without the mutex, api/DocumentManager.cpp:19-35. *)
  Record manager := Manager { dm_next : Z; dm_docs : doc_map; dm_unique : Z }.

  (** Impl::Impl and DocumentManager::DocumentManager, api/DocumentManager.cpp:27-41. *)
  Definition initial : manager := Manager 1 [] 1000000.

  (** The public functions with their arguments. createFromFile and createFromStream
      differ in where the input comes from, writeToFile and writeToStream in where the
      output goes. *)
  Inductive op :=
  | CreateFromInput (i : Input)
  | CreateFromScore (d : Data)
  | Write (id : Z)
  | GetData (id : Z)
  | Destroy (id : Z)
  | GetDocument (id : Z)
  | GetUniqueId.

  (** What the caller sees. *)
  Inductive result :=
  | RId (id : Z)
  | RNothing                  (* returned without doing anything visible *)
  | RWritten (o : Output)
  | RData (d : Data)
  | RDoc (d : option doc)
  | RThrow.                   (* an exception *)

  Inductive answer := Returns (r : result) (s : manager) | Crash.

  (** myMap[myCurrentId] = mxdoc; return myCurrentId++, api/DocumentManager.cpp:103-104,
      :123-124, :142-143. *)
  Definition store (d : doc) (s : manager) : answer :=
    if dm_next s =? int_max then Crash
    else Returns (RId (dm_next s)) (Manager (dm_next s + 1) (m_set (dm_next s) d (dm_docs s)) (dm_unique s)).

  (** createFromFile, createFromStream, api/DocumentManager.cpp:57-125. *)
  Definition createFromInput (i : Input) (s : manager) : answer :=
    match sv_parse sv i with
    | Ok d => store d s
    | Throw => Returns RThrow s
    | UB => Crash
    end.

  (** The document made from a score, api/DocumentManager.cpp:130-139. *)
  Definition document_of_score (d : Data) : outcome doc :=
    obind (sv_write sv d) (fun p =>
      if sv_is_timewise sv d then convertContents (sv_attrs sv) (sv_music sv) (Partwise p) else Ok (Partwise p)).

  (** createFromScore, api/DocumentManager.cpp:128-144. *)
  Definition createFromScore (d : Data) (s : manager) : answer :=
    match document_of_score d with
    | Ok d => store d s
    | Throw => Returns RThrow s
    | UB => Crash
    end.

  (** writeToFile, writeToStream, api/DocumentManager.cpp:147-178. *)
  Definition write (id : Z) (s : manager) : answer :=
    match m_find id (dm_docs s) with
    | None => Returns RNothing s
    | Some d => match sv_save sv d with Ok o => Returns (RWritten o) s | Throw => Returns RThrow s | UB => Crash end
    end.

  Definition with_docs (s : manager) (m : doc_map) : manager := Manager (dm_next s) m (dm_unique s).

  (** getData, api/DocumentManager.cpp:181-209. The stored document is converted in
      place. *)
  Definition getData (id : Z) (s : manager) : answer :=
    match m_find id (dm_docs s) with
    | None => Returns (RData (sv_no_data sv)) s
    | Some (Partwise p) =>
        match sv_read sv p with Ok x => Returns (RData x) s | Throw => Returns RThrow s | UB => Crash end
    | Some (Timewise t) =>
        let p := timewisePartwise (sv_attrs sv) (sv_music sv) t in
        let s1 := with_docs s (m_set id (Partwise p) (dm_docs s)) in
        match sv_read sv p with
        | Ok x =>
            match convertContents (sv_attrs sv) (sv_music sv) (Partwise p) with
            | Ok d => Returns (RData (sv_set_timewise sv x)) (with_docs s1 (m_set id d (dm_docs s1)))
            | Throw => Returns RThrow s1
            | UB => Crash
            end
        | Throw => Returns RThrow s1
        | UB => Crash
        end
    end.

  (** destroyDocument, api/DocumentManager.cpp:212-223. *)
  Definition destroyDocument (id : Z) (s : manager) : answer :=
    match m_find id (dm_docs s) with
    | None => Returns RNothing s
    | Some _ => Returns RNothing (with_docs s (m_erase id (dm_docs s)))
    end.

  (** getDocument, api/DocumentManager.cpp:226-237. *)
  Definition getDocument (id : Z) (s : manager) : answer := Returns (RDoc (m_find id (dm_docs s))) s.

  (** getUniqueId, api/DocumentManager.cpp:239-245. *)
  Definition getUniqueId (s : manager) : answer :=
    if dm_unique s =? int_max then Crash
    else Returns (RId (dm_unique s)) (Manager (dm_next s) (dm_docs s) (dm_unique s + 1)).

  Definition call (o : op) (s : manager) : answer :=
    match o with
    | CreateFromInput i => createFromInput i s
    | CreateFromScore d => createFromScore d s
    | Write id => write id s
    | GetData id => getData id s
    | Destroy id => destroyDocument id s
    | GetDocument id => getDocument id s
    | GetUniqueId => getUniqueId s
    end.

  (** A history of calls one after the other: the results so far and the state, or
      nothing once one of them is undefined. *)
  Fixpoint calls (os : list op) (s : manager) : option (list result * manager) :=
    match os with
    | [] => Some ([], s)
    | o :: r =>
        match call o s with
        | Crash => None
        | Returns x s1 => option_map (fun p => (x :: fst p, snd p)) (calls r s1)
        end
    end.

  (** ** The same functions step by step, for concurrent execution. *)

  (** One step of a function body. Steps outside ILock..IUnlock touch only the
      caller's own variables. *)
  Inductive instr :=
  | IParse (i : Input)          (* api/DocumentManager.cpp:59-100, :110-120 *)
  | IWriteScore (d : Data)      (* :130-139 *)
  | ILock                       (* LOCK_DOCUMENT_MANAGER, :11 *)
  | IUnlock                     (* ~lock_guard *)
  | IStore                      (* myMap[myCurrentId] = mxdoc *)
  | ITakeId                     (* return myCurrentId++: the value *)
  | IIncId                      (* return myCurrentId++: the increment *)
  | IFindOr (id : Z) (r : result) (* it = find; if it == end return r *)
  | ISave (id : Z)              (* :158-160, :175-177 *)
  | IConvert (id : Z)           (* :192-198 *)
  | IRead (id : Z)              (* :200-201 *)
  | IConvertBack (id : Z)       (* :203-208 *)
  | IErase (id : Z)             (* :222 *)
  | IFetch (id : Z)             (* :236 *)
  | ITakeUnique                 (* :242 *)
  | IIncUnique.                 (* :243 *)

  (** The functions, api/DocumentManager.cpp:57-245. *)
  Definition code (o : op) : list instr :=
    match o with
    | CreateFromInput i => [IParse i; ILock; IStore; ITakeId; IIncId; IUnlock]
    | CreateFromScore d => [IWriteScore d; ILock; IStore; ITakeId; IIncId; IUnlock]
    | Write id => [ILock; IFindOr id RNothing; ISave id; IUnlock]
    | GetData id => [ILock; IFindOr id (RData (sv_no_data sv)); IConvert id; IRead id; IConvertBack id; IUnlock]
    | Destroy id => [ILock; IFindOr id RNothing; IErase id; IUnlock]
    | GetDocument id => [ILock; IFindOr id (RDoc None); IFetch id; IUnlock]
    | GetUniqueId => [ILock; ITakeUnique; IIncUnique; IUnlock]
    end.

  (** Local variables of a call: mxdoc, wasTimewise, score, the value returned. *)
  Record locals := Locals { l_doc : option doc; l_was : bool; l_score : option Data; l_result : result }.
  Definition no_locals : locals := Locals None false None RNothing.
  Definition set_result (l : locals) (r : result) : locals := Locals (l_doc l) (l_was l) (l_score l) r.

  (** A step goes on, leaves the function (return or exception; the lock is released
      on the way out), or is undefined. *)
  Inductive effect := Next (s : manager) (l : locals) | Leave (s : manager) (l : locals) | Boom.

  (** One step other than ILock and IUnlock. Steps that use a document run after
      IFindOr found it; without a document they are undefined. *)
  Definition exec (i : instr) (s : manager) (l : locals) : effect :=
    match i with
    | IParse x =>
        match sv_parse sv x with
        | Ok d => Next s (Locals (Some d) (l_was l) (l_score l) (l_result l))
        | Throw => Leave s (set_result l RThrow)
        | UB => Boom
        end
    | IWriteScore x =>
        match document_of_score x with
        | Ok d => Next s (Locals (Some d) (l_was l) (l_score l) (l_result l))
        | Throw => Leave s (set_result l RThrow)
        | UB => Boom
        end
    | ILock | IUnlock => Next s l
    | IStore =>
        match l_doc l with
        | Some d => Next (with_docs s (m_set (dm_next s) d (dm_docs s))) l
        | None => Boom
        end
    | ITakeId => Next s (set_result l (RId (dm_next s)))
    | IIncId => if dm_next s =? int_max then Boom else Next (Manager (dm_next s + 1) (dm_docs s) (dm_unique s)) l
    | IFindOr id r => match m_find id (dm_docs s) with None => Leave s (set_result l r) | Some _ => Next s l end
    | ISave id =>
        match m_find id (dm_docs s) with
        | None => Boom
        | Some d => match sv_save sv d with Ok o => Next s (set_result l (RWritten o)) | Throw => Leave s (set_result l RThrow) | UB => Boom end
        end
    | IConvert id =>
        match m_find id (dm_docs s) with
        | None => Boom
        | Some (Partwise _) => Next s (Locals (l_doc l) false (l_score l) (l_result l))
        | Some (Timewise t) =>
            Next (with_docs s (m_set id (Partwise (timewisePartwise (sv_attrs sv) (sv_music sv) t)) (dm_docs s)))
                 (Locals (l_doc l) true (l_score l) (l_result l))
        end
    | IRead id =>
        match m_find id (dm_docs s) with
        | Some (Partwise p) =>
            match sv_read sv p with
            | Ok x => Next s (Locals (l_doc l) (l_was l) (Some x) (l_result l))
            | Throw => Leave s (set_result l RThrow)
            | UB => Boom
            end
        | _ => Boom
        end
    | IConvertBack id =>
        match m_find id (dm_docs s), l_score l with
        | Some d, Some x =>
            if l_was l then
              match convertContents (sv_attrs sv) (sv_music sv) d with
              | Ok d1 => Next (with_docs s (m_set id d1 (dm_docs s))) (set_result l (RData (sv_set_timewise sv x)))
              | Throw => Leave s (set_result l RThrow)
              | UB => Boom
              end
            else Next s (set_result l (RData x))
        | _, _ => Boom
        end
    | IErase id => Next (with_docs s (m_erase id (dm_docs s))) l
    | IFetch id => Next s (set_result l (RDoc (m_find id (dm_docs s))))
    | ITakeUnique => Next s (set_result l (RId (dm_unique s)))
    | IIncUnique => if dm_unique s =? int_max then Boom else Next (Manager (dm_next s) (dm_docs s) (dm_unique s + 1)) l
    end.

  (** A call in progress: the steps left and the local variables. *)
  Record activation := Activation { a_op : op; a_rest : list instr; a_locals : locals }.

  (** A thread: its current call, if any, and the calls it will make. *)
  Record thread := Thread { t_now : option activation; t_todo : list op }.

  Inductive event := Invoke (t : nat) (o : op) | Return_ (t : nat) (o : op) (r : result).

  (** Shared state, mutex owner, threads, and the calls and returns so far (oldest
      first). *)
  Record config := Config {
    c_state : manager; c_owner : option nat; c_threads : nat -> thread; c_trace : list event }.

  Definition upd (f : nat -> thread) (t : nat) (x : thread) : nat -> thread :=
    fun u => if Nat.eqb u t then x else f u.

  Definition owned_by (t : nat) (o : option nat) : bool :=
    match o with Some u => Nat.eqb u t | None => false end.

  Inductive moved := Moved (c : config) | Blocked | Crashed.

  (** Thread t makes its next step. Leaving a function early goes on with the release
      of the lock if the thread holds it (std::lock_guard). *)
  Definition move (t : nat) (c : config) : moved :=
    let th := c_threads c t in
    match t_now th with
    | None =>
        match t_todo th with
        | [] => Blocked
        | o :: r => Moved (Config (c_state c) (c_owner c)
                      (upd (c_threads c) t (Thread (Some (Activation o (code o) no_locals)) r))
                      (c_trace c ++ [Invoke t o]))
        end
    | Some (Activation o rest l) =>
        match rest with
        | [] => Moved (Config (c_state c) (c_owner c) (upd (c_threads c) t (Thread None (t_todo th)))
                  (c_trace c ++ [Return_ t o (l_result l)]))
        | ILock :: rest =>
            match c_owner c with
            | None => Moved (Config (c_state c) (Some t)
                        (upd (c_threads c) t (Thread (Some (Activation o rest l)) (t_todo th))) (c_trace c))
            | Some _ => Blocked
            end
        | IUnlock :: rest =>
            Moved (Config (c_state c) None
              (upd (c_threads c) t (Thread (Some (Activation o rest l)) (t_todo th))) (c_trace c))
        | i :: rest =>
            match exec i (c_state c) l with
            | Next s l1 => Moved (Config s (c_owner c)
                (upd (c_threads c) t (Thread (Some (Activation o rest l1)) (t_todo th))) (c_trace c))
            | Leave s l1 => Moved (Config s (c_owner c)
                (upd (c_threads c) t (Thread (Some (Activation o (if owned_by t (c_owner c) then [IUnlock] else []) l1)) (t_todo th))) (c_trace c))
            | Boom => Crashed
            end
        end
    end.

  (** Thread u starts with the calls [prog u] to make. *)
  Definition start (prog : nat -> list op) : config := Config initial None (fun u => Thread None (prog u)) [].

  (** The scheduler picks threads in any order; picking a blocked thread changes
      nothing. None: the program crashed. *)
  Fixpoint schedule (ts : list nat) (c : config) : option config :=
    match ts with
    | [] => Some c
    | t :: r => match move t c with Moved c1 => schedule r c1 | Blocked => schedule r c | Crashed => None end
    end.
End Manager.
Arguments services : clear implicits.
Arguments manager : clear implicits.
Arguments op : clear implicits.
Arguments result : clear implicits.
