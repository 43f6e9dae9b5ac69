(** * C145, continued: the viewer *)
From Coq Require Import Ascii.
From Verif Require Import Base Types Utf8 F32 F32Facts Versioned VersionedSpec Dispatch Events Tags Maps Lobby Balance
  Convert Stream Iterators StreamSpec IteratorStreams State StateSpec StateExample Merge MergeSpec Rows RowSpec Viewer ViewerSpec PropsViewer Stops ExportStops ViewerStops.
#[local] Open Scope string_scope.
#[local] Open Scope Z_scope.
#[local] Open Scope list_scope.

(** The viewer, whatever the filters and the inputs, over any two byte strings:
    if no event of the two iterators stops the program, it starts, and it draws
    its frames until it is told to quit. *)
Theorem C145_viewer : forall mc p init d b st t g, starts init d b st -> bytes_ok t -> bytes_ok g -> mc_build mc = Wrapping \/ no_run 9 t -> exists ta gs,
  (forall n, tracker_calls (mc_build mc) p n (tracker_start t) = Ok (firstn n (ta ++ repeat None n))) /\
  (forall n, game_calls (mc_build mc) p (player_names st) n (game_start g) = Ok (firstn n (map Some gs ++ repeat None n))) /\
  (~ Exists (stops (mc_build mc) (users_of st)) (map tracker_item (present ta) ++ map game_item_event gs) ->
   forall f players size ts, exists a frames z, new_app mc p (merge_start st t g f) players size = Ok a /\ view mc p ts a = Ok (frames, z)).
Proof. exact viewer_quiet. Qed.
Print Assumptions C145_viewer.
(** The same of a readable replay, by the events written in it. *)
Theorem C145_viewer_readable : forall mc p init d b st tevs t gevs g f players size ts, starts init d b st -> sectors_of mc p tevs t gevs g -> ~ stopped_by mc st tevs gevs ->
  exists a frames z, new_app mc p (merge_start st t g f) players size = Ok a /\ view mc p ts a = Ok (frames, z).
Proof. exact viewer_readable. Qed.
Print Assumptions C145_viewer_readable.
(** The replay of the examples of the viewer. *)
Example C145_viewer_example : starts w_init w_details ex_balance (w_state w_init) /\ sectors_of ex_mc P87702 w_tevs w_t w_gevs w_g /\
  ~ stopped_by ex_mc (w_state w_init) w_tevs w_gevs.
Proof.
  destruct C105_example as (Hst & Hs & _). split; [exact Hst|]. split; [exact Hs|]. intros H.
  destruct (readable_stop ex_mc P87702 _ _ _ _ _ _ _ _ item (fun i => [i]) Hst Hs) as (E & _). apply E in H. vm_compute in H. discriminate.
Qed.
