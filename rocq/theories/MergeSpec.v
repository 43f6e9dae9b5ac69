(** * What merging and filtering mean *)
From Verif Require Import Base Types Events Maps Lobby Balance Convert ConvertSpec Stream Iterators Dispatch BitSpec BitFormat ByteTypes BitTypes StreamSpec State StateSpec Merge.
#[local] Open Scope Z_scope.
#[local] Open Scope list_scope.

(** [l] contains the elements of [a] and those of [b], each of the two in its
    own order, and nothing else. *)
Inductive interleaving {A} : list A -> list A -> list A -> Prop :=
| il_nil : interleaving [] [] []
| il_left : forall x a b l, interleaving a b l -> interleaving (x :: a) b (x :: l)
| il_right : forall x a b l, interleaving a b l -> interleaving a (x :: b) (x :: l).

(** The loop of an event. *)
Definition event_loop (e : sc2_event) : Z := match e with ETracker l _ => l | EGame l _ _ _ => l end.
(** Loops never decrease. *)
Definition in_order (l : list Z) : Prop := Sorted.StronglySorted Z.le l.
(** The elements that are there. *)
Definition present {A} (l : list (option A)) : list A := flat_map (fun x => match x with Some a => [a] | None => [] end) l.

(** An iterator some number of calls after it was made for a replay: its
    sectors are any bytes. *)
Definition reached (mc : machine) (p : proto) (it : merged) : Prop :=
  exists init d b st t g f k answers, starts init d b st /\ bytes_ok t /\ bytes_ok g /\
    merge_calls mc p k (merge_start st t g f) = Ok (answers, it).
(** The tracker event, and the game event, that comes next. *)
Definition next_tracker (mc : machine) (p : proto) (it : merged) (x : option (Z * tracker_event)) : Prop :=
  match mg_next_tracker it with
  | Some t => x = Some t
  | None => exists s, tracker_next (mc_build mc) p (mg_tracker it) = Ok (x, s)
  end.
Definition next_game (mc : machine) (p : proto) (it : merged) (x : option (Z * game_item)) : Prop :=
  match mg_next_game it with
  | Some g => x = Some g
  | None => exists s, game_next (mc_build mc) p (player_names (mg_state it)) (mg_game it) = Ok (x, s)
  end.

(** A history of events with gaps; each gap gives an answer without item. *)
Fixpoint play (mc : machine) (st : state) (l : list (option sc2_event)) : outcome (state * list (option item)) :=
  match l with
  | [] => Ok (st, [])
  | None :: l' => do (st, is) <- play mc st l'; Ok (st, None :: is)
  | Some e :: l' => do (st, i) <- handle_transition mc st e; do (st, is) <- play mc st l'; Ok (st, Some i :: is)
  end.
(** The items of a run, without the final state. *)
Definition items_of (r : outcome (state * list item)) : outcome (list item) := do x <- r; Ok (snd x).
Definition answers_of (r : outcome (list (option item) * merged)) : outcome (list (option item)) := do x <- r; Ok (fst x).

(** What a filter lets through: everything but the items it hides. *)
Definition let_through (f : filters) (a : option item) : bool :=
  match a with Some i => negb (skip_event f (it_event i)) | None => true end.
(** The first [k] items; [None] in the place of every later one. *)
Fixpoint first_items {A} (k : nat) (l : list (option A)) : list (option A) :=
  match l with
  | [] => []
  | None :: l' => None :: first_items k l'
  | Some a :: l' => match k with O => None :: first_items O l' | S k' => Some a :: first_items k' l' end
  end.
(** The player a tracker event names as the one who controls or owns something. *)
Definition controlling_player (e : tracker_event) : option Z :=
  match e with
  | TPlayerStats x => Some (ps_player_id x)
  | TUnitBorn x => Some (ub_control x)
  | TUnitInit x => Some (ui_control x)
  | TUnitOwnerChange x => Some (uo_control x)
  | TUpgrade x => Some (ug_player_id x)
  | TPlayerSetup x => Some (se_player_id x)
  | TUnitDied _ | TUnitTypeChange _ | TUnitDone _ | TUnitPosition _ => None
  end.

(** [t] and [g] are the tracker sector and the game sector of the events [tevs]
    and [gevs] (StreamSpec.v), with readable names. *)
Definition sectors_of (mc : machine) (p : proto) (tevs : list (Z * val)) (t : list Z) (gevs : list (Z * (Z * val))) (g : list Z) : Prop :=
  bytes_ok t /\ bytes_ok g /\ tracker_sector tevs t /\ Forall (fun ev => well_named (snd ev)) tevs /\
  user_sector (crate (mc_build mc)) (game_type p) gevs (stream (g, 0%nat)).
(** The unit type a tracker event names. *)
Definition named_unit (e : tracker_event) : option string :=
  match e with
  | TUnitBorn x => Some (ub_name x)
  | TUnitInit x => Some (ui_name x)
  | TUnitTypeChange x => Some (ut_name x)
  | _ => None
  end.
