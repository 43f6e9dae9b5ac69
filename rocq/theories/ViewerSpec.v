(** * What the viewer shows *)
From Coq Require Import Ascii.
From Verif Require Import Base F32 Tags Events Maps Balance Lobby State StateSpec Merge MergeSpec Viewer.
#[local] Open Scope string_scope.
#[local] Open Scope Z_scope.
#[local] Open Scope list_scope.

(** A turn in which a key is pressed down that asks for the next event, or that
    ends the viewer. *)
Definition pressed (t : turn) (keys : list key) : Prop := exists k, fst t = Some (IKey k KPress) /\ In k keys.
Definition next_keys : list key := [KChar "n"%char; KChar " "%char; KRight].
Definition quit_keys : list key := [KChar "q"%char; KEsc].
(** How many of the turns ask for the next event. *)
Inductive presses : list turn -> nat -> Prop :=
| pr_nil : presses [] 0
| pr_next : forall t l n, pressed t next_keys -> presses l n -> presses (t :: l) (Datatypes.S n)
| pr_other : forall t l n, ~ pressed t next_keys -> presses l n -> presses (t :: l) n.
(** The turns before the first one that ends the viewer. *)
Inductive before_quit : list turn -> list turn -> Prop :=
| bq_nil : before_quit [] []
| bq_quit : forall t l, pressed t quit_keys -> before_quit (t :: l) []
| bq_other : forall t l m, ~ pressed t quit_keys -> before_quit l m -> before_quit (t :: l) (t :: m).

(** The first [z] of the answers are items of loop 0, and the one after them is
    not. *)
Definition of_loop_zero (a : option item) : Prop := exists i, a = Some i /\ event_loop (it_event i) = 0.
Definition opens_after (z : nat) (answers : list (option item)) : Prop :=
  Forall of_loop_zero (firstn z answers) /\ exists a, nth_error answers z = Some a /\ ~ of_loop_zero a.

(** ** The picture of a state *)
(** A circle at the place of a unit, with its radius and colour. *)
Definition circle_shows (u : sc2_unit) (c : circle) : Prop :=
  (exists z, su_pos u = (ci_x c, ci_y c, z)) /\ ci_radius c = su_radius u /\
  exists r g b a, su_color u = (r, g, b, a) /\ ci_color c = (r, g, b).
(** One circle for every registered unit. *)
Definition map_shows (st : state) (l : list circle) : Prop :=
  exists ids, NoDup ids /\ (forall i, In i ids <-> unit_of st i <> None) /\
    Forall2 (fun i c => exists u, unit_of st i = Some u /\ circle_shows u c) ids l.
(** One box for every user, at his camera; [paint] are the colours. *)
Definition cameras_show (color : Z -> paint) (st : state) (l : list camera_box) : Prop :=
  exists ids, NoDup ids /\ (forall i, In i ids <-> user_of st i <> None) /\
    Forall2 (fun i c => exists us, user_of st i = Some us /\ bx_center c = us_camera us /\ bx_color c = color i) ids l.
(** The lines of a selection: the registered units among it, in its order. *)
Definition line_shows (u : sc2_unit) (l : selected_line) : Prop :=
  sl_name l = su_name u /\ sl_index l = su_index u /\
  sl_ability l = match uc_abil (su_cmd u) with Some a => ab_name a | None => "" end.
Definition selection_shows (st : state) (uid : Z) (l : list selected_line) : Prop :=
  Forall2 line_shows (units_at st (indices (selection st uid))) l.

(** The lines of a player in the details pane. *)
Definition player_shows (slot : Z) (x : player_details) (l : player_lines) : Prop :=
  pl_toon l = (to_region (pd_toon x), to_realm (pd_toon x), to_id (pd_toon x)) /\ pl_name l = pd_name x /\ pl_slot l = slot /\
  pl_race l = pd_race x /\ pl_result l = pd_result x.
(** The colour of a player in the details. *)
Definition rgb_of (x : player_details) : rgb := let '(_, r, g, b) := pd_color x in (r, g, b).
(** The details pane of a list of players, top down, after the players [before]:
    a player without a slot has no lines; one whose slot no player before him has
    is drawn in his own colour. *)
Inductive pane_shows : list player_details -> list player_details -> list player_lines -> Prop :=
| ps_nil : forall before, pane_shows before [] []
| ps_none : forall before x xs ls, pd_slot x = None -> pane_shows (before ++ [x]) xs ls -> pane_shows before (x :: xs) ls
| ps_slot : forall before x s l xs ls, pd_slot x = Some s -> player_shows s x l ->
    (Forall (fun y => pd_slot y <> Some s) before -> pl_color l = Some (rgb_of x)) ->
    pane_shows (before ++ [x]) xs ls -> pane_shows before (x :: xs) (l :: ls).
