(** * Workers that share the writer of an Arrow file

    src/arrow_store/mod.rs:243-272 and 318-335: the parallel form of the loops
    that write a table; src/arrow_store/ipc_writer.rs:41-87: the writer behind a
    mutex.  Every source is worked on by some thread; threads take steps in any
    order. *)
From Verif Require Import Base Types DetailsData Archive.
#[local] Open Scope Z_scope.
#[local] Open Scope list_scope.

Section Workers.
  Context {D A : Type}.
  (** What the closure computes for a source before it writes; it reads files but
      shares nothing. *)
  Variable rows_of : D -> outcome (option (list A)).
  (** The bytes of a batch (Arrow, external). *)
  Variable enc : list A -> list Z.
  (** Whether writing to the file may fail. *)
  Variable faulty : bool.

  (** Where the work on a source stands: not begun; its batch waits for the lock;
      it is being written, with these bytes still to come; done, with the number
      of rows if it was written; broken off by a panic. *)
  Inductive work := WStart | WWait (b : list A) | WWrite (b : list A) (rest : list Z) | WDone (n : option Z) | WPanic.
  Record pool := mk_pool { po_work : list (D * work); po_locked : bool; po_file : list Z }.
  Inductive pstep : pool -> pool -> Prop :=
  (** The closure up to the call of [write_to_arrow_mutex_writer]; an empty batch
      is not written (ipc_writer.rs:47-49). *)
  | s_rows : forall l1 d l2 k f b, rows_of d = Ok (Some b) -> b <> [] ->
      pstep (mk_pool (l1 ++ (d, WStart) :: l2) k f) (mk_pool (l1 ++ (d, WWait b) :: l2) k f)
  | s_none : forall l1 d l2 k f o, rows_of d = Ok o -> (o = None \/ o = Some []) ->
      pstep (mk_pool (l1 ++ (d, WStart) :: l2) k f) (mk_pool (l1 ++ (d, WDone None) :: l2) k f)
  | s_panic : forall l1 d l2 k f, rows_of d = Panic ->
      pstep (mk_pool (l1 ++ (d, WStart) :: l2) k f) (mk_pool (l1 ++ (d, WPanic) :: l2) k f)
  (** ipc_writer.rs:50: [lock] waits for the lock. *)
  | s_lock : forall l1 d l2 f b,
      pstep (mk_pool (l1 ++ (d, WWait b) :: l2) false f) (mk_pool (l1 ++ (d, WWrite b (enc b)) :: l2) true f)
  (** ipc_writer.rs:62: [write], byte by byte. *)
  | s_write : forall l1 d l2 f b x rest,
      pstep (mk_pool (l1 ++ (d, WWrite b (x :: rest)) :: l2) true f) (mk_pool (l1 ++ (d, WWrite b rest) :: l2) true (f ++ [x]))
  (** ipc_writer.rs:63: the lock is released with the guard. *)
  | s_done : forall l1 d l2 f b,
      pstep (mk_pool (l1 ++ (d, WWrite b []) :: l2) true f) (mk_pool (l1 ++ (d, WDone (Some (Z.of_nat (length b)))) :: l2) false f)
  (** ipc_writer.rs:64-69: a failure is logged. *)
  | s_fail : forall l1 d l2 f b x rest, faulty = true ->
      pstep (mk_pool (l1 ++ (d, WWrite b (x :: rest)) :: l2) true f) (mk_pool (l1 ++ (d, WDone None) :: l2) false f).
  (** [n] steps. *)
  Inductive psteps : nat -> pool -> pool -> Prop :=
  | psteps_0 : forall p, psteps O p p
  | psteps_S : forall n p q r, pstep p q -> psteps n q r -> psteps (Datatypes.S n) p r.
  (** The beginning: the file is created and nothing is written; [head] is what
      creating the writer puts into it (external). *)
  Definition at_start (head : list Z) (sources : list D) : pool := mk_pool (map (fun d => (d, WStart)) sources) false head.
  Definition all_done (p : pool) : Prop := Forall (fun x => exists n, snd x = WDone n) (po_work p).
  (** [.sum::<usize>()]. *)
  Definition total_records (p : pool) : Z := fold_right (fun x s => match snd x with WDone (Some n) => n + s | _ => s end) 0 (po_work p).
End Workers.
Arguments work : clear implicits.
Arguments pool : clear implicits.
