(** * The terminal viewer: examples/tui/mod.rs

    Not modelled: the terminal itself and its errors, the sizes of the panes (what
    does not fit is cut off), the text of the event (EventPane: here a pane
    holds the item whose JSON it prints, line 339-348), and the clock: that a tick
    has passed is an input. *)
From Coq Require Import Ascii.
From Verif Require Import Base F32 Tags Events Maps Balance Lobby DetailsData Dispatch State Merge Files Archive Cli.
#[local] Open Scope string_scope.
#[local] Open Scope Z_scope.
#[local] Open Scope list_scope.

(** What the terminal reports (crossterm, external). *)
Inductive key := KChar (c : ascii) | KDown | KUp | KLeft | KRight | KEsc | KElse.
Inductive key_kind := KPress | KRepeat | KRelease.
Inductive mouse := MDown | MUp | MDrag (column row : Z) | MElse.
Inductive input := IKey (k : key) (kind : key_kind) | IMouse (m : mouse) | IElse.
(** One turn of the loop of lines 129-145: the input read, if there was one in
    time, and whether a tick was due. *)
Definition turn : Type := (option input * bool)%type.

(** Model of examples/tui/mod.rs:62-76 [S2ProtoRatatuiApp].  Simplification: [x]
    and [y], which nothing reads, are integers here, and [tick_count] is not
    bounded; of the initial data only the size of the map is kept. *)
Record viewer := mk_app {
  ap_exit : bool; ap_x : Z; ap_y : Z; ap_ticks : Z; ap_points : list (Z * Z); ap_drawing : bool;
  ap_players : list player_details; ap_size : Z * Z; ap_iter : merged; ap_current : option item }.

(** ** What is drawn *)
Definition rgb : Type := (Z * Z * Z)%type.
(** [None] is [Color::White]. *)
Definition paint : Type := option rgb.
(** [f64::from] is exact, so the coordinates are kept as [f32]. *)
Record circle := mk_circle { ci_x : f32; ci_y : f32; ci_radius : f32; ci_color : rgb }.
(** A 20 by 20 rectangle around the point (x / 250, y / 250).  The [f64] division and
    subtraction are in CameraBox.v. *)
Record camera_box := mk_box { bx_center : point_mini; bx_color : paint }.
(** A line of [selected_player_units]: name, index, ability. *)
Record selected_line := mk_line { sl_name : string; sl_index : Z; sl_ability : string }.
(** The lines of one player in [details_canvas]. *)
Record player_lines := mk_lines { pl_toon : Z * Z * Z; pl_name : string; pl_slot : Z; pl_race : string; pl_result : string; pl_color : paint }.
Record frame := mk_frame {
  fr_event : option item; fr_name_color : option paint; fr_size : Z * Z; fr_circles : list circle; fr_boxes : list camera_box;
  fr_details : list player_lines; fr_first : list selected_line; fr_second : list selected_line }.

(** Model of examples/tui/mod.rs:449-457 [get_player_color]. *)
Definition get_player_color (players : list player_details) (user_id : Z) : paint :=
  match find (fun x => match pd_slot x with Some s => s =? as_u8 user_id | None => false end) players with
  | Some x => let '(_, r, g, b) := pd_color x in Some (r, g, b)
  | None => None
  end.
(** Model of examples/tui/mod.rs:396-403. *)
Definition circle_of (u : sc2_unit) : circle :=
  let '(x, y, _) := su_pos u in let '(r, g, b, _) := su_color u in mk_circle x y (su_radius u) (r, g, b).
(** Model of examples/tui/mod.rs:404-412. *)
Definition box_of (players : list player_details) (x : Z * user_state) : camera_box :=
  mk_box (us_camera (snd x)) (get_player_color players (fst x)).
(** Model of examples/tui/mod.rs:423-440: one tag of the selection. *)
Definition line_of (u : sc2_unit) : selected_line :=
  mk_line (su_name u) (su_index u) (match uc_abil (su_cmd u) with Some a => ab_name a | None => "" end).
Definition tag_line (units : list (Z * sc2_unit)) (tag : Z) : list selected_line :=
  match mget (unit_tag_index tag) units with Some u => [line_of u] | None => [] end.
(** Model of examples/tui/mod.rs:416-447 [selected_player_units]: the user met at
    position [k] when the hash map of users is walked.  [ACTIVE_UNITS_GROUP_IDX]
    is 10 (src/state/mod.rs:37). *)
Definition selected_player_units (st : state) (k : nat) : list selected_line :=
  match nth_error (st_users st) k with
  | Some (_, us) => flat_map (tag_line (st_units st)) (nth 10 (us_groups us) [])
  | None => []
  end.
(** Model of examples/tui/mod.rs:459-489 [details_canvas]. *)
Definition details_canvas (players : list player_details) : list player_lines :=
  flat_map (fun x => match pd_slot x with
    | Some s => [mk_lines (to_region (pd_toon x), to_realm (pd_toon x), to_id (pd_toon x)) (pd_name x) s (pd_race x) (pd_result x) (get_player_color players s)]
    | None => []
    end) players.
(** Model of examples/tui/mod.rs:228-241: the line that names the player of a game
    event. *)
Definition name_color (players : list player_details) (i : option item) : option paint :=
  match i with
  | Some i => match it_event i with EGame _ u _ _ => Some (get_player_color players u) | ETracker _ _ => None end
  | None => None
  end.
(** Model of examples/tui/mod.rs:184-199 [draw], 383-414 [map_canvas]. *)
Definition draw (a : viewer) : frame :=
  let st := mg_state (ap_iter a) in
  mk_frame (ap_current a) (name_color (ap_players a) (ap_current a)) (ap_size a)
    (map (fun x => circle_of (snd x)) (st_units st)) (map (box_of (ap_players a)) (st_users st))
    (details_canvas (ap_players a)) (selected_player_units st 0) (selected_player_units st 1).

(** ** What the inputs do *)
Definition with_exit (b : bool) (a : viewer) : viewer :=
  mk_app b (ap_x a) (ap_y a) (ap_ticks a) (ap_points a) (ap_drawing a) (ap_players a) (ap_size a) (ap_iter a) (ap_current a).
Definition with_xy (x y : Z) (a : viewer) : viewer :=
  mk_app (ap_exit a) x y (ap_ticks a) (ap_points a) (ap_drawing a) (ap_players a) (ap_size a) (ap_iter a) (ap_current a).
Definition with_pen (l : list (Z * Z)) (b : bool) (a : viewer) : viewer :=
  mk_app (ap_exit a) (ap_x a) (ap_y a) (ap_ticks a) l b (ap_players a) (ap_size a) (ap_iter a) (ap_current a).
Definition with_event (i : option item) (it : merged) (a : viewer) : viewer :=
  mk_app (ap_exit a) (ap_x a) (ap_y a) (ap_ticks a) (ap_points a) (ap_drawing a) (ap_players a) (ap_size a) it i.

Section Viewer.
  Variable mc : machine.
  Variable p : proto.
  (** [KeyCode::Char('n') | KeyCode::Right | KeyCode::Char(' ')]: line 156. *)
  Definition forward (a : viewer) : outcome viewer := do (i, it) <- merge_next mc p (ap_iter a); Ok (with_event i it a).
  (** Model of examples/tui/mod.rs:149-164 [handle_key_press]. *)
  Definition handle_key_press (k : key) (kind : key_kind) (a : viewer) : outcome viewer :=
    match kind with
    | KPress =>
        match k with
        | KChar "q"%char | KEsc => Ok (with_exit true a)
        | KDown | KChar "j"%char => Ok (with_xy (ap_x a) (ap_y a + 1) a)
        | KChar "n"%char | KRight | KChar " "%char => forward a
        | KUp | KChar "k"%char => Ok (with_xy (ap_x a) (ap_y a - 1) a)
        | KChar "l"%char => Ok (with_xy (ap_x a + 1) (ap_y a) a)
        | KLeft | KChar "h"%char => Ok (with_xy (ap_x a - 1) (ap_y a) a)
        | _ => Ok a
        end
    | _ => Ok a
    end.
  (** Model of examples/tui/mod.rs:166-175 [handle_mouse_event]. *)
  Definition handle_mouse_event (m : mouse) (a : viewer) : viewer :=
    match m with
    | MDown => with_pen (ap_points a) true a
    | MUp => with_pen (ap_points a) false a
    | MDrag c r => with_pen (ap_points a ++ [(c, r)]) (ap_drawing a) a
    | MElse => a
    end.
  (** Model of examples/tui/mod.rs:177-182 [on_tick]. *)
  Definition on_tick (a : viewer) : viewer :=
    mk_app (ap_exit a) (ap_x a) (ap_y a) (ap_ticks a + 1) (ap_points a) (ap_drawing a) (ap_players a) (ap_size a) (ap_iter a) (ap_current a).
  (** Model of examples/tui/mod.rs:132-144. *)
  Definition take_turn (t : turn) (a : viewer) : outcome viewer :=
    do a <- match fst t with
            | Some (IKey k kind) => handle_key_press k kind a
            | Some (IMouse m) => Ok (handle_mouse_event m a)
            | _ => Ok a
            end;
    Ok (if snd t then on_tick a else a).
  (** Model of examples/tui/mod.rs:126-147 [run], as far as the turns [ts] go: the
      frames drawn until then. *)
  Fixpoint view (ts : list turn) (a : viewer) : outcome (list frame * viewer) :=
    if ap_exit a then Ok ([], a)
    else
      match ts with
      | [] => Ok ([draw a], a)
      | t :: ts' => do a' <- take_turn t a; do (fs, z) <- view ts' a'; Ok (draw a :: fs, z)
      end.

  (** The loop of an item. *)
  Definition item_loop (i : item) : Z := match it_event i with ETracker l _ => l | EGame l _ _ _ => l end.
  (** Model of examples/tui/mod.rs:84-108: the items of loop 0 are passed over.
      Every item takes a piece of the sectors (MergeFacts.v), which bounds the
      turns; ViewerFacts.v proves that the fuel never runs out. *)
  Fixpoint skip_zero (n : nat) (i : option item) (it : merged) : outcome (option item * merged) :=
    match i with
    | None => Ok (None, it)
    | Some x =>
        if item_loop x =? 0 then
          match n with
          | O => Err (EOther "out of fuel")
          | S n' => do (i', it') <- merge_next mc p it; skip_zero n' i' it'
          end
        else Ok (Some x, it)
    end.
  (** Model of examples/tui/mod.rs:77-124 [new]. *)
  Definition new_app (it : merged) (players : list player_details) (size : Z * Z) : outcome viewer :=
    do (i, it1) <- merge_next mc p it;
    do (i, it1) <- skip_zero (left_over it) i it1;
    Ok (mk_app false 0 0 0 [] false players size it1 i).
End Viewer.

(** Model of examples/cli/cmd_get.rs:132-147: [get transist-events --tui] on a file
    that is an archive; the program ends with it. *)
Definition tui_one (mc : machine) (w : world) (all : all_balance) (c : cli) (a : archive) (d : full_init) : outcome viewer :=
  do it <- iterator_new (mc_build mc) w d all;
  do x <- file_raw_details (mc_build mc) a;
  new_app mc (iterator_proto d) (with_filters (Some (filters_of_cli c)) it) (xd_player_list x)
    (fd_map_size_x (sy_game_description (xi_sync d)), fd_map_size_y (sy_game_description (xi_sync d))).
