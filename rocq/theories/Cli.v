(** * The command line tool: [get]

    examples/cli/cmd_get.rs and examples/cli/mod.rs.  Not modelled: the parsing of
    the arguments (clap), logging, the terminal interface ([--tui]: Viewer.v) and the
    reading of the balance data (BalanceFiles.v), which comes first and whose
    result is an argument here. *)
From Verif Require Import Base Types Utf8 Versioned ByteTypes ConvertSpec Dispatch Events Convert Iterators Balance Lobby DetailsData State Merge Rows Files Archive.
#[local] Open Scope string_scope.
#[local] Open Scope Z_scope.
#[local] Open Scope list_scope.

(** Model of examples/cli/cmd_get.rs:13-27 [ReadTypes]. *)
Inductive read_type := RTracker | RGame | RMessages | RDetails | RInit | RTransist.
(** Model of the options of examples/cli/mod.rs:91-173 [Cli] that [get] uses. *)
Record cli := mk_cli {
  cl_player : option Z; cl_min : option Z; cl_max : option Z; cl_type : option string; cl_unit : option string;
  cl_events : option Z; cl_stats : bool; cl_quiet : bool }.
(** Model of examples/cli/mod.rs:318-331 [From<Cli> for SC2ReplayFilters]. *)
Definition filters_of_cli (c : cli) : filters :=
  mk_filters (cl_player c) None (cl_min c) (cl_max c) (cl_type c) (cl_unit c) (cl_events c) (cl_stats c).

(** What is printed: the brackets and commas, and JSON values.  Simplification: a
    value stands for its JSON text, coloured (examples/cli/mod.rs:195-207
    [syntect_json_print], 172-193); neither serde_json nor syntect fails. *)
Inductive token :=
| KOpen | KClose | KComma
| KEvent (i : item)
| KMessage (x : Z * (Z * chat_message))
| KDetails (d : full_details)
| KInit (d : full_init).
(** How a run ends, and what it has printed by then. *)
Definition printed : Type := outcome unit * list token.
Definition stop {A} (x : outcome A) : printed := match x with Ok _ => (Ok tt, []) | Err e => (Err e, []) | Panic => (Panic, []) end.
Definition print (l : list token) : printed := (Ok tt, l).
(** One thing after the other; nothing more after an error or a panic. *)
Definition andthen (a b : printed) : printed :=
  match fst a with Ok _ => (fst b, snd a ++ snd b) | _ => a end.
(** [x?] *)
Definition use {A} (x : outcome A) (f : A -> printed) : printed := match x with Ok a => f a | y => stop y end.

(** Model of src/state/mod.rs:621-630 [is_game_event], [is_tracker_event]. *)
Definition is_game_event (i : item) : bool := match it_event i with EGame _ _ _ _ => true | ETracker _ _ => false end.
Definition is_tracker_event (i : item) : bool := match it_event i with ETracker _ _ => true | EGame _ _ _ _ => false end.
(** [for evt in res.into_iter() { .. }], printing [show i] for every item; the
    fuel is that of Rows.v. *)
Fixpoint print_fuel (mc : machine) (p : proto) (show : item -> list token) (n : nat) (it : merged) : printed :=
  match n with
  | O => (Err (EOther "out of fuel"), [])
  | S n' =>
      use (merge_next mc p it) (fun r =>
        match fst r with
        | None => print []
        | Some i => andthen (print (show i)) (print_fuel mc p show n' (snd r))
        end)
  end.
Definition print_items (mc : machine) (p : proto) (show : item -> list token) (it : merged) : printed :=
  print_fuel mc p show (S (left_over it)) it.

(** Model of src/versions/mod.rs:90-108 [read_details], without the
    [set_metadata] of [Details::new]. *)
Definition file_raw_details (m : build) (a : archive) : outcome full_details :=
  do b <- checked_header m a;
  do s <- ar_sector a "replay.details";
  match dispatch_details b with
  | P75689 | P87702 => do (r, v) <- vparse m ba_GameSDetails s; details_from v
  end.
(** Model of examples/cli/cmd_get.rs:77-162: the [match] on the type, for a file
    whose initial data are [d]. *)
Definition get_one (mc : machine) (w : world) (all : all_balance) (c : cli) (r : read_type) (a : archive) (d : full_init) : printed :=
  let m := mc_build mc in
  let events (wanted : item -> bool) :=
    use (iterator_new m w d all) (fun it =>
      andthen (print [KOpen])
        (andthen (print_items mc (iterator_proto d) (fun i => if wanted i then [KEvent i] else []) it)
          (print [KClose]))) in
  match r with
  | RTracker => events is_tracker_event
  | RGame => events is_game_event
  | RMessages => use (file_message_events m a) (fun l => print (KOpen :: map KMessage l ++ [KClose]))
  | RDetails => use (file_raw_details m a) (fun x => print [KDetails x])
  | RInit => print [KInit d]
  | RTransist =>
      let loud (l : list token) := if cl_quiet c then [] else l in
      use (iterator_new m w d all) (fun it =>
        let it := with_filters (Some (filters_of_cli c)) it in
        andthen (print (loud [KOpen]))
          (andthen (print_items mc (iterator_proto d) (fun i => loud [KEvent i; KComma]) it)
            (print (loud [KClose]))))
  end.
(** Model of examples/cli/cmd_get.rs:54-162: the body of the loop.  A file that
    cannot be read or is not an archive is passed over. *)
Definition get_source (mc : machine) (w : world) (all : all_balance) (c : cli) (r : read_type) (p : path) : printed :=
  match open_file w (path_string p) with
  | Err _ => print []
  | Panic => (Panic, [])
  | Ok a =>
      match path_text p with
      | None => (Panic, [])
      | Some name => use (file_init (mc_build mc) name 0 a) (get_one mc w all c r a)
      end
  end.
(** Model of examples/cli/cmd_get.rs:42-49: the entries that are files. *)
Fixpoint entry_files (t : tree) (source : path) (l : list (option string)) : outcome (list path) :=
  match l with
  | [] => Ok []
  | None :: _ => Err (EOther "io")
  | Some n :: l' =>
      do ps <- entry_files t source l';
      Ok (if is_file t (source ++ [n]) then (source ++ [n]) :: ps else ps)
  end.
(** Model of examples/cli/cmd_get.rs:41-53. *)
Definition get_sources (t : tree) (source : path) : outcome (list path) :=
  match t source with
  | NDir None => Err (EOther "io")
  | NDir (Some l) => entry_files t source l
  | _ => Ok [source]
  end.
(** Model of examples/cli/cmd_get.rs:29-166 [handle_get_cmd]. *)
Fixpoint get_loop (mc : machine) (w : world) (all : all_balance) (c : cli) (r : read_type) (l : list path) : printed :=
  match l with
  | [] => print []
  | p :: l' => andthen (get_source mc w all c r p) (get_loop mc w all c r l')
  end.
Definition handle_get_cmd (mc : machine) (t : tree) (w : world) (all : all_balance) (c : cli) (r : read_type) (source : path) : printed :=
  use (get_sources t source) (get_loop mc w all c r).
