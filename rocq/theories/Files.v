(** * Searching replays in a directory tree *)
From Coq Require Import Ascii.
From Verif Require Import Base.
#[local] Open Scope string_scope.
#[local] Open Scope Z_scope.
#[local] Open Scope list_scope.

(** A path: the names from the root, outermost first. *)
Definition path : Type := list string.
(** What [Path::is_dir], [Path::is_file] (both follow links) and
    [std::fs::read_dir] say about a path (external).  A directory that cannot
    be opened has no entry list, and reading one entry may fail too.  The tree is
    a function of the path: links that make it infinite are included; a tree that
    changes during the search is not. *)
Inductive node := NDir (entries : option (list (option string))) | NFile | NOther.
Definition tree : Type := path -> node.

(** Model of [Path::extension] (std, external) of a file name: what follows the
    last dot, unless there is none or nothing else before it.  [None] of the
    inner call: no dot in [s]. *)
Fixpoint split_dot (s : string) : option (string * string) :=
  match s with
  | EmptyString => None
  | String c s' =>
      match split_dot s' with
      | Some (a, b) => Some (String c a, b)
      | None => if Ascii.eqb c "."%char then Some (EmptyString, s') else None
      end
  end.
Definition extension (name : string) : option string :=
  match split_dot name with
  | Some (EmptyString, _) => None
  | Some (_, e) => Some e
  | None => None
  end.
Definition is_replay_name (name : string) : bool :=
  match extension name with Some e => String.eqb e "SC2Replay" | None => false end.

(** [a - b] of [usize]. *)
Definition usize_sub (bd : build) (a b : Z) : outcome Z :=
  if b <=? a then Ok (a - b) else match bd with Checked => Panic | Wrapping => Ok ((a - b) mod 2 ^ 64) end.
Definition is_dir (t : tree) (p : path) : bool := match t p with NDir _ => true | _ => false end.
Definition is_file (t : tree) (p : path) : bool := match t p with NFile => true | _ => false end.
(** [Vec::truncate]. *)
Definition truncate {A} (n : Z) (l : list A) : list A := firstn (Z.to_nat n) l.

(** The [for] loop of src/lib.rs:215-236; [search] is the recursive call. *)
Fixpoint entry_loop (bd : build) (t : tree) (search : path -> Z -> outcome (list path)) (max_files : Z)
  (source : path) (entries : list (option string)) (sources : list path) : outcome (list path) :=
  match entries with
  | [] => Ok sources
  | None :: _ => Err (EOther "io")
  | Some name :: rest =>
      let path := source ++ [name] in
      if is_dir t path then
        do n <- usize_sub bd max_files (Z.of_nat (length sources));
        do sub <- search path n;
        match sub with
        | [] => entry_loop bd t search max_files source rest sources
        | _ :: _ =>
            do remaining <- usize_sub bd max_files (Z.of_nat (length sources));
            let sub := if remaining <? Z.of_nat (length sub) then truncate remaining sub else sub in
            entry_loop bd t search max_files source rest (sources ++ sub)
        end
      else if is_replay_name name && is_file t path then
        if max_files <=? Z.of_nat (length sources) then Ok sources
        else entry_loop bd t search max_files source rest (sources ++ [path])
      else entry_loop bd t search max_files source rest sources
  end.
(** Model of src/lib.rs:202-242 [get_matching_files]. *)
Fixpoint get_matching_files (bd : build) (t : tree) (max_depth : nat) (source : path) (max_files : Z) : outcome (list path) :=
  match max_depth with
  | O => Ok []
  | Datatypes.S d =>
      match t source with
      | NDir None => Err (EOther "io")
      | NDir (Some entries) => entry_loop bd t (get_matching_files bd t d) max_files source entries []
      | _ => Ok []
      end
  end.

(** ** Specification *)
(** [names] leads from [source] through directories to a replay file. *)
Inductive replay_below (t : tree) : path -> list string -> Prop :=
| below_file : forall source es name, t source = NDir (Some es) -> In (Some name) es -> t (source ++ [name]) = NFile -> is_replay_name name = true -> replay_below t source [name]
| below_dir : forall source es name names, t source = NDir (Some es) -> In (Some name) es -> replay_below t (source ++ [name]) names -> replay_below t source (name :: names).
(** Every directory reached within [d] levels can be read and lists a name once. *)
Inductive readable_below (t : tree) : nat -> path -> Prop :=
| readable_0 : forall p, readable_below t O p
| readable_not_dir : forall d p, is_dir t p = false -> readable_below t d p
| readable_dir : forall d p names, t p = NDir (Some (map Some names)) -> NoDup names -> (forall n, In n names -> readable_below t d (p ++ [n])) -> readable_below t (Datatypes.S d) p.
