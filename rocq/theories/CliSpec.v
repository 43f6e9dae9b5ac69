(** * What [get] is said to print *)
From Verif Require Import Base Types Utf8 ConvertSpec Dispatch Events Convert Iterators BitSpec ByteTypes Versioned StreamSpec IteratorStreams Balance Lobby DetailsData DetailsSpec State StateSpec Merge MergeSpec Rows Files Archive ArchiveSpec Cli.
#[local] Open Scope string_scope.
#[local] Open Scope Z_scope.
#[local] Open Scope list_scope.

(** The items an iterator delivers before it answers for the first time that
    there are no more. *)
Definition delivers_all (mc : machine) (p : proto) (it : merged) (its : list item) : Prop :=
  exists it', merge_calls mc p (S (length its)) it = Ok (map Some its ++ [None], it').
(** It delivers these, and the next call panics. *)
Definition delivers_then_panics (mc : machine) (p : proto) (it : merged) (its : list item) : Prop :=
  exists it', merge_calls mc p (length its) it = Ok (map Some its, it') /\ merge_next mc p it' = Panic.
(** Where an item comes from. *)
Definition of_tracker_events (i : item) : bool := match it_event i with ETracker _ _ => true | _ => false end.
Definition of_game_events (i : item) : bool := match it_event i with EGame _ _ _ _ => true | _ => false end.

(** ** Filters *)
(** The options [c] hide the item [i]. *)
Definition hidden_by (c : cli) (i : item) : Prop :=
  match it_event i with
  | EGame _ uid _ _ => exists q, cl_player c = Some q /\ uid mod 256 <> q
  | ETracker l e =>
      (exists a, cl_min c = Some a /\ l < a) \/ (exists b, cl_max c = Some b /\ b < l) \/
      match e with
      | TUnitDied x => exists q, cl_player c = Some q /\ ud_killer_player x <> Some q
      | _ =>
          (exists q o, cl_player c = Some q /\ controlling_player e = Some o /\ o <> q) \/
          (exists s o, cl_unit c = Some s /\ named_unit e = Some o /\ o <> s) \/
          (exists y, e = TPlayerStats y) /\ cl_stats c = false
      end
  end.
(** The items of [its] that are not hidden, as many as the limit lets pass: one
    less than [--max-events] (C28). *)
Definition shown_by (c : cli) (its shown : list item) : Prop :=
  exists f, (forall i, f i = false <-> hidden_by c i) /\
    shown = match cl_events c with Some n => firstn (Z.to_nat n - 1) (filter f its) | None => filter f its end.

(** ** The section of one archive [a] with the initial data [d] *)
Inductive section_of (mc : machine) (w : world) (all : all_balance) (c : cli) (a : archive) (d : full_init) : read_type -> list token -> Prop :=
| sec_tracker : forall st t g its, opens (mc_build mc) w all d st t g -> delivers_all mc (iterator_proto d) (merge_start st t g None) its ->
    section_of mc w all c a d RTracker (KOpen :: map KEvent (filter of_tracker_events its) ++ [KClose])
| sec_game : forall st t g its, opens (mc_build mc) w all d st t g -> delivers_all mc (iterator_proto d) (merge_start st t g None) its ->
    section_of mc w all c a d RGame (KOpen :: map KEvent (filter of_game_events its) ++ [KClose])
| sec_messages : forall l, file_message_events (mc_build mc) a = Ok l -> section_of mc w all c a d RMessages (KOpen :: map KMessage l ++ [KClose])
| sec_details : forall l r v x b, header_of (mc_build mc) a signature_text b -> ar_sector a "replay.details" = Ok l -> vparse (mc_build mc) ba_GameSDetails l = Ok (r, v) ->
    details_shown v x -> section_of mc w all c a d RDetails [KDetails x]
| sec_init : section_of mc w all c a d RInit [KInit d]
| sec_transist : forall st t g its, opens (mc_build mc) w all d st t g ->
    delivers_all mc (iterator_proto d) (merge_start st t g (Some (filters_of_cli c))) its ->
    section_of mc w all c a d RTransist (if cl_quiet c then [] else KOpen :: flat_map (fun i => [KEvent i; KComma]) its ++ [KClose]).
(** What is printed for the path [p]: the section of an archive with the initial
    data C87 speaks of, nothing for a file that cannot be read as an archive. *)
Inductive part_of (mc : machine) (w : world) (all : all_balance) (c : cli) (r : read_type) (p : path) : list token -> Prop :=
| part_skipped : path_string p = "" \/ (exists e, w (path_string p) = Err e) -> part_of mc w all c r p []
| part_section : forall a d l, path_string p <> "" -> w (path_string p) = Ok a -> is_utf8 (bytes_of_str (path_string p)) ->
    says_init (mc_build mc) a d -> xi_fs_id d = 0 -> xi_file_name d = path_string p ->
    section_of mc w all c a d r l -> part_of mc w all c r p l.

(** The paths that are read: the entries of the directory
    that are files, in the order of the directory; any other path itself. *)
Definition sources_of (t : tree) (source : path) (l : list path) : Prop :=
  (exists names, t source = NDir (Some (map Some names)) /\
     exists f, (forall n, f n = true <-> t (source ++ [n]) = NFile) /\ l = map (fun n => source ++ [n]) (filter f names)) \/
  ((forall es, t source <> NDir es) /\ l = [source]).

(** ** Decoded events *)
(** An event without the names that the state adds to commands and upgrades. *)
Definition without_names (e : sc2_event) : sc2_event :=
  match e with
  | ETracker l (TUpgrade x) => ETracker l (TUpgrade (mk_upgrade (ug_player_id x) None (ug_name x) (ug_count x)))
  | EGame l u n (GCmd c) =>
      EGame l u n (GCmd (mk_cmd (cm_flags c) (match cm_abil c with Some a => Some (mk_abil (ab_link a) "" (ab_index a) (ab_data a)) | None => None end)
        (cm_data c) (cm_sequence c) (cm_other c) (cm_group c)))
  | _ => e
  end.
(** The item [i] is the tracker event [ev] of the sector. *)
Definition shows_tracker (ev : Z * val) (i : item) : Prop :=
  exists e, tracker_from (snd ev) = Ok e /\ without_names (it_event i) = without_names (ETracker (fst ev) e).
(** The item [i] is the game event [ev] of the sector, with its user and the
    name of the user. *)
Definition shows_game (names : Z -> option string) (ev : Z * (Z * val)) (i : item) : Prop :=
  exists e, game_from (snd (snd ev)) = Ok e /\ without_names (it_event i) = without_names (EGame (fst ev) (fst (snd ev)) (names (fst (snd ev))) e).

(** ** JSON *)
(** [true] for a whole value. *)
Definition is_value (k : token) : bool := match k with KOpen | KClose | KComma => false | _ => true end.
(** A JSON array: values separated by commas, in brackets. *)
Inductive array_rest : list token -> Prop :=
| rest_end : array_rest [KClose]
| rest_next : forall v l, is_value v = true -> array_rest l -> array_rest (KComma :: v :: l).
Inductive json_array : list token -> Prop :=
| array_empty : json_array [KOpen; KClose]
| array_values : forall v l, is_value v = true -> array_rest l -> json_array (KOpen :: v :: l).
(** A JSON text: one value. *)
Definition json_text (l : list token) : Prop := json_array l \/ exists v, is_value v = true /\ l = [v].

(** ** Stopping *)
Definition failed_as {A} (x : outcome A) (o : outcome unit) : Prop := (exists e, x = Err e /\ o = Err e) \/ (x = Panic /\ o = Panic).
(** Why the run stops at the file [p], with [o], after having printed [l] of it:
    opening the file panics; its name is not text; its initial data cannot be
    read; the sectors asked for cannot be read; or the iteration panics in the
    middle. *)
Inductive stops_at (mc : machine) (w : world) (all : all_balance) (c : cli) (r : read_type) (p : path) (o : outcome unit) : list token -> Prop :=
| stop_open : w (path_string p) = Panic -> o = Panic -> stops_at mc w all c r p o []
| stop_name : forall a, w (path_string p) = Ok a -> ~ is_utf8 (bytes_of_str (path_string p)) -> o = Panic -> stops_at mc w all c r p o []
| stop_init : failed_as (init_try_from (mc_build mc) w p 0) o -> stops_at mc w all c r p o []
| stop_events : forall d, init_try_from (mc_build mc) w p 0 = Ok d -> In r [RTracker; RGame; RTransist] -> failed_as (iterator_new (mc_build mc) w d all) o -> stops_at mc w all c r p o []
| stop_messages : forall a, w (path_string p) = Ok a -> r = RMessages -> failed_as (file_message_events (mc_build mc) a) o -> stops_at mc w all c r p o []
| stop_details : forall a, w (path_string p) = Ok a -> r = RDetails -> failed_as (file_details (mc_build mc) 0 a) o -> stops_at mc w all c r p o []
| stop_listing : forall d st t g its f, init_try_from (mc_build mc) w p 0 = Ok d -> opens (mc_build mc) w all d st t g ->
    (r = RTracker /\ f = of_tracker_events \/ r = RGame /\ f = of_game_events) ->
    delivers_then_panics mc (iterator_proto d) (merge_start st t g None) its -> o = Panic ->
    stops_at mc w all c r p o (KOpen :: map KEvent (filter f its))
| stop_transist : forall d st t g its, init_try_from (mc_build mc) w p 0 = Ok d -> opens (mc_build mc) w all d st t g -> r = RTransist ->
    delivers_then_panics mc (iterator_proto d) (merge_start st t g (Some (filters_of_cli c))) its -> o = Panic ->
    stops_at mc w all c r p o (if cl_quiet c then [] else KOpen :: flat_map (fun i => [KEvent i; KComma]) its).
