(** * C141: the camera boxes and the circles on the viewer's map *)
From Coq Require Import Lia.
From Verif Require Import Base Types BitFacts VersionedEncode F32 F32Facts F64 F64Round Dispatch Events Maps Lobby Balance Convert ConvertSpec Iterators State StateSpec StateExample Merge MergeSpec PropsMerge Viewer ViewerSpec ViewerFacts PropsViewer
  CameraBox CameraBoxSpec CameraBoxFacts CircleFacts.
#[local] Open Scope string_scope.
#[local] Open Scope Z_scope.
#[local] Open Scope list_scope.

(** In every frame of every replay the box of a user is a square of 20 by 20 with
    the camera, scaled down by 250, in its middle.  [bx_center c] is the camera
    position (C106 says which); it has 16 bits. *)
Theorem C141_boxes : forall mc p init d b st t g f players size a ts frames z' k fr, starts init d b st -> bytes_ok t -> bytes_ok g ->
  new_app mc p (merge_start st t g f) players size = Ok a -> view mc p ts a = Ok (frames, z') -> nth_error frames k = Some fr ->
  Forall (fun c => sixteen_bits (bx_center c) /\ surrounds (rectangle_of c) (bx_center c)) (fr_boxes fr).
Proof. exact viewer_boxes. Qed.
Print Assumptions C141_boxes.

(** The rounding never swaps two boxes, and keeps apart those of cameras that are
    apart. *)
Theorem C141_order : forall c c', sixteen_bits (bx_center c) -> sixteen_bits (bx_center c') ->
  (pm_x (bx_center c) < pm_x (bx_center c') <-> fval64 (re_x (rectangle_of c)) < fval64 (re_x (rectangle_of c'))) /\
  (pm_y (bx_center c) < pm_y (bx_center c') <-> fval64 (re_y (rectangle_of c)) < fval64 (re_y (rectangle_of c'))).
Proof. exact boxes_ordered. Qed.
Print Assumptions C141_order.

(** Every circle is drawn at the place and with the radius of its unit (C106),
    unrounded, with any balance data of radii an [f32] can hold; units read from
    JSON have no others (C142_floats). *)
Theorem C141_circles : forall mc p init d b st t g f players size a ts frames z' k fr, starts init d b st -> bytes_ok t -> bytes_ok g -> float_radii b ->
  new_app mc p (merge_start st t g f) players size = Ok a -> view mc p ts a = Ok (frames, z') -> nth_error frames k = Some fr ->
  Forall drawn_exactly (fr_circles fr).
Proof. exact viewer_circles. Qed.
Print Assumptions C141_circles.

(** The camera of user 0 jumps to the far corner, then to the place (2500, 2501);
    a camera at 10 cells gives a box from 0. *)
Definition cam_jump (x y : Z) : Z * val := (0, game_value (GCameraSave (mk_camera_save 1 (mk_point x y)))).
Definition cam_g : list Z := g_sector [(3, cam_jump 65535 65535); (6, cam_jump 2500 2501)].
Definition cam_frames : list frame := Eval vm_compute in
  match (do a <- new_app ex_mc P87702 (merge_start ex_start (t_sector t_events) cam_g None) [] (200, 176); do x <- view ex_mc P87702 [w_turn KRight; w_turn KRight; w_turn KRight] a; Ok (fst x)) with Ok l => l | _ => [] end.
Lemma cam_example : exists a z, new_app ex_mc P87702 (merge_start ex_start (t_sector t_events) cam_g None) [] (200, 176) = Ok a /\
  view ex_mc P87702 [w_turn KRight; w_turn KRight; w_turn KRight] a = Ok (cam_frames, z).
Proof.
  assert (E : (do a <- new_app ex_mc P87702 (merge_start ex_start (t_sector t_events) cam_g None) [] (200, 176); do x <- view ex_mc P87702 [w_turn KRight; w_turn KRight; w_turn KRight] a; Ok (fst x)) = Ok cam_frames) by (vm_compute; reflexivity).
  apply obind_ok in E as (a & Ea & E). apply obind_ok in E as ([fs z] & Ev & E). cbn [fst] in E. injection E as <-. eauto.
Qed.
Example C141_example : starts ex_init ex_details ex_balance ex_start /\ bytes_ok (t_sector t_events) /\ bytes_ok cam_g /\
  float_radii ex_balance /\
  (exists a z, new_app ex_mc P87702 (merge_start ex_start (t_sector t_events) cam_g None) [] (200, 176) = Ok a /\
    view ex_mc P87702 [w_turn KRight; w_turn KRight; w_turn KRight] a = Ok (cam_frames, z)) /\
  map (fun f => length (fr_circles f)) cam_frames = [0; 0; 1; 1]%nat /\
  map (fun f => map bx_center (firstn 1 (fr_boxes f))) cam_frames = [[mk_point 65535 65535]; [mk_point 65535 65535]; [mk_point 65535 65535]; [mk_point 2500 2501]].
Proof.
  split; [exact ex_starts|]. split; [apply byte_list_ok; vm_compute; reflexivity|]. split; [apply byte_list_ok; vm_compute; reflexivity|].
  split; [intros n u r E R; unfold ex_balance in E; cbn [sget] in E; repeat (destruct (String.eqb _ n); [injection E as <-; cbn in R; first [discriminate|injection R as <-; reflexivity]|]); discriminate|].
  split; [exact cam_example|]. split; vm_compute; reflexivity.
Qed.
Example C141_edges : map (fun z => fval64 (camera_edge z) / 2 ^ 1034) [0; 2500; 2501; 65535] = [-10 * 2 ^ 40; 0; 4398046511; 277230861827440].
Proof. vm_compute. reflexivity. Qed.
