(** * Property theorems: seconds, map coordinates, command positions (C84-C86)

    [fval x] (F32Round.v) is the number a float denotes, times 2^149: an integer
    for every single-precision float. *)
From Coq Require Import SpecFloat.
From Verif Require Import Base F32 F32Facts Coords F32Round Types BitSpec BitPacked BitProofs BitInterp BitTypes BitFacts Events Convert ConvertSpec State Rows SecondsFacts CoordFacts.
#[local] Open Scope Z_scope.

(** C84.  Seconds never decrease with the loop. *)
Theorem C84_monotone : forall l1 l2, in_i64 l1 = true -> in_i64 l2 = true -> l1 <= l2 -> game_seconds l1 <= game_seconds l2.
Proof. exact seconds_mono. Qed.
Print Assumptions C84_monotone.
(** Tracker and game loops are converted alike. *)
Theorem C84_same_for_tracker : forall l, in_i64 l = true -> tracker_seconds l = game_seconds l.
Proof. exact tracker_game_seconds. Qed.
Print Assumptions C84_same_for_tracker.
(** Loops up to 0 are second 0; the result is always a u32. *)
Theorem C84_range : forall l, in_i64 l = true -> (l <= 0 -> game_seconds l = 0) /\ 0 <= game_seconds l <= two32 - 1.
Proof. intros l Hl. split; [exact (seconds_nonpos l Hl)|exact (seconds_nonneg l Hl)]. Qed.
Print Assumptions C84_range.
(** The documented ratio, 68.58391 ms per loop, rounded down: false in general
    (one second too much at loop 69127). *)
Theorem C84_exact_refuted : exists l, 0 <= l <= 2 ^ 17 /\ game_seconds l <> l * 6858391 / 100000000.
Proof. exists 69127. split; [lia|vm_compute; discriminate]. Qed.
Print Assumptions C84_exact_refuted.
(** It holds for every earlier loop, that is for the first 79 minutes. *)
Theorem C84_exact_partial : forall l, 0 <= l < 69127 -> game_seconds l = l * 6858391 / 100000000.
Proof. exact seconds_exact. Qed.
Print Assumptions C84_exact_partial.
(** Later it is off by at most one second, up to loop 2^25; *)
Theorem C84_one_second_partial : forall l, 0 <= l <= 2 ^ 25 -> Z.abs (game_seconds l - l * 6858391 / 100000000) <= 1.
Proof. exact seconds_within_one. Qed.
Print Assumptions C84_one_second_partial.
(** and by one part in 2^22 (and the rounding down) before the u32 saturates. *)
Theorem C84_relative_partial : forall l, 0 <= l <= 2 ^ 35 ->
  game_seconds l * 2 ^ 22 * 100000000 <= (2 ^ 22 + 1) * (l * 6858391) /\
  (2 ^ 22 - 1) * (l * 6858391) < (game_seconds l + 1) * 2 ^ 22 * 100000000.
Proof. exact seconds_close. Qed.
Print Assumptions C84_relative_partial.
(** The observation the ratio comes from (src/lib.rs:186): 13735 loops are 942 seconds. *)
Example C84_example : game_seconds 13735 = 942 /\ tracker_seconds (2 ^ 40) = two32 - 1 /\ game_seconds 69127 = 4741 /\ 69127 * 6858391 / 100000000 = 4740.
Proof. split; [vm_compute; reflexivity|]. split; [vm_compute; reflexivity|]. split; vm_compute; reflexivity. Qed.

(** C85.  The map position of a cell, or of a terrain point, lies in that cell,
    or at that point: false for negative coordinates, which move by one, *)
Theorem C85_negative_refuted : exists x y, in_i32 x = true /\ in_i32 y = true /\
  cell_of_map (map_of_cell (x, y)) <> (x, y) /\ terrain_of_map (map_of_terrain (x, y)) <> (x, y).
Proof. exists (-1), (-1). split; [reflexivity|]. split; [reflexivity|]. split; vm_compute; discriminate. Qed.
Print Assumptions C85_negative_refuted.
(** and for large ones. *)
Theorem C85_large_refuted : exists x y, in_i32 x = true /\ in_i32 y = true /\ 0 <= x /\ 0 <= y /\
  cell_of_map (map_of_cell (x, y)) <> (x, y) /\ terrain_of_map (map_of_terrain (x, y)) <> (x, y).
Proof. exists (2 ^ 23 + 1), 0. split; [reflexivity|]. split; [reflexivity|]. split; [lia|]. split; [lia|]. split; vm_compute; discriminate. Qed.
Print Assumptions C85_large_refuted.
Theorem C85_cell_round_trip_partial : forall x y, 0 <= x < 2 ^ 23 -> 0 <= y < 2 ^ 23 -> cell_of_map (map_of_cell (x, y)) = (x, y).
Proof. exact cell_round_trip. Qed.
Print Assumptions C85_cell_round_trip_partial.
Theorem C85_terrain_round_trip_partial : forall x y, 0 <= x < 2 ^ 23 -> 0 <= y < 2 ^ 23 -> terrain_of_map (map_of_terrain (x, y)) = (x, y).
Proof. exact terrain_round_trip. Qed.
Print Assumptions C85_terrain_round_trip_partial.
Theorem C85_negative_partial : forall x y, - 2 ^ 23 <= x < 0 -> - 2 ^ 23 <= y < 0 ->
  cell_of_map (map_of_cell (x, y)) = (x + 1, y + 1) /\ terrain_of_map (map_of_terrain (x, y)) = (x + 1, y + 1).
Proof. exact negative_round_trip. Qed.
Print Assumptions C85_negative_partial.
(** A position that is not negative belongs to the cell that contains it:
    c <= x < c + 1. *)
Theorem C85_cell_contains_partial : forall x y, at_least_zero x -> at_least_zero y -> fval x < 2 ^ 31 * 2 ^ 149 -> fval y < 2 ^ 31 * 2 ^ 149 ->
  fst (cell_of_map (x, y)) * 2 ^ 149 <= fval x < (fst (cell_of_map (x, y)) + 1) * 2 ^ 149 /\
  snd (cell_of_map (x, y)) * 2 ^ 149 <= fval y < (snd (cell_of_map (x, y)) + 1) * 2 ^ 149.
Proof. intros x y Hx Hy Lx Ly. split; [exact (cell_contains1 x Hx Lx)|exact (cell_contains1 y Hy Ly)]. Qed.
Print Assumptions C85_cell_contains_partial.
(** Its terrain point is the nearest one: false just below one half. *)
Theorem C85_nearest_refuted : exists x, at_least_zero x /\ 2 * fval x < 2 ^ 149 /\ fst (terrain_of_map (x, x)) = 1.
Proof. exists (S754_finite false 16777215 (-25)). split; [split; reflexivity|]. split; vm_compute; reflexivity. Qed.
Print Assumptions C85_nearest_refuted.
(** It is never farther than one half, plus the rounding of the sum x + 1/2:
    |x - t| <= 1/2 + (x + 1/2) / 2^24. *)
Theorem C85_nearest_partial : forall x y, at_least_zero x -> at_least_zero y -> fval x < 2 ^ 30 * 2 ^ 149 -> fval y < 2 ^ 30 * 2 ^ 149 ->
  2 ^ 24 * Z.abs (fval x - fst (terrain_of_map (x, y)) * 2 ^ 149) <= 2 ^ 24 * 2 ^ 148 + (fval x + 2 ^ 148) /\
  2 ^ 24 * Z.abs (fval y - snd (terrain_of_map (x, y)) * 2 ^ 149) <= 2 ^ 24 * 2 ^ 148 + (fval y + 2 ^ 148).
Proof. intros x y Hx Hy Lx Ly. split; [exact (terrain_near1 x Hx Lx)|exact (terrain_near1 y Hy Ly)]. Qed.
Print Assumptions C85_nearest_partial.
(** The cell (100, 37) lies at (100.5, 37.5); its corners are terrain points. *)
Example C85_example : cell_of_map (map_of_cell (100, 37)) = (100, 37) /\ fval (fst (map_of_cell (100, 37))) = 201 * 2 ^ 148 /\
  terrain_of_map (map_of_cell (100, 37)) = (101, 38) /\ at_least_zero (fst (map_of_cell (100, 37))) /\ fval (fst (map_of_cell (100, 37))) < 2 ^ 30 * 2 ^ 149.
Proof. split; [vm_compute; reflexivity|]. split; [vm_compute; reflexivity|]. split; [vm_compute; reflexivity|]. split; [split; vm_compute; auto|vm_compute; reflexivity]. Qed.

(** C86.  The position of a command is its raw coordinate divided by 4096, with
    y mirrored, without any rounding, for coordinates up to 2^24. *)
Theorem C86_position : forall c, - 2 ^ 24 <= co_x c <= 2 ^ 24 -> - 2 ^ 24 <= co_y c <= 2 ^ 24 -> - 2 ^ 24 <= co_z c <= 2 ^ 24 ->
  4096 * fval (fst (fst (vec3_of_coord c))) = co_x c * 2 ^ 149 /\ 4096 * fval (snd (fst (vec3_of_coord c))) = - co_y c * 2 ^ 149 /\
  4096 * fval (snd (vec3_of_coord c)) = co_z c * 2 ^ 149.
Proof. exact command_position. Qed.
Print Assumptions C86_position.
(** Every coordinate read from a replay: x and y are exact, z is the nearest
    float. *)
Theorem C86_from_file : forall m c c' v, cursor_ok c -> bparse m bp_GameSMapCoord3D c = Ok (c', v) ->
  exists k, coord3_from v = Ok k /\ coord_value k = v /\
    4096 * fval (fst (fst (vec3_of_coord k))) = co_x k * 2 ^ 149 /\ 4096 * fval (snd (fst (vec3_of_coord k))) = - co_y k * 2 ^ 149 /\
    2 ^ 24 * Z.abs (4096 * fval (snd (vec3_of_coord k)) - co_z k * 2 ^ 149) <= Z.abs (co_z k) * 2 ^ 149.
Proof. exact coord_from_file. Qed.
Print Assumptions C86_from_file.
Example C86_file_example : cursor_ok ([150; 0; 37; 0; 136; 0; 1; 128; 0], 0%nat) /\
  bparse Checked bp_GameSMapCoord3D ([150; 0; 37; 0; 136; 0; 1; 128; 0], 0%nat) = Ok (([], 0%nat), coord_value (mk_coord 614405 131208 (-2147385344))).
Proof.
  split; [split; [apply byte_list_ok; reflexivity|split; [cbn; lia|cbn; lia]]|]. vm_compute. reflexivity.
Qed.
Example C86_example : let c := mk_coord 614400 (-2048) 32768 in
  fst (fst (vec3_of_coord c)) = f32_of_int 150 /\ snd (fst (vec3_of_coord c)) = f32_half /\ snd (vec3_of_coord c) = f32_of_int 8.
Proof. split; [vm_compute; reflexivity|]. split; vm_compute; reflexivity. Qed.
