(** * C132: the text of the viewer's event pane *)
From Coq Require Import Ascii.
From Verif Require Import Base F32Round F64 F64Round Events Tags Maps Lobby ConvertSpec Balance State Rows EventPane EventPaneSpec EventPaneFacts Viewer StateExample PropsViewer.
#[local] Open Scope string_scope.
#[local] Open Scope Z_scope.
#[local] Open Scope list_scope.

(** C132.  The pane of an event whose loop is below 2^43, whatever JSON and [Debug]
    print: the line of the player for a game event, the line of the clock, the
    event's JSON, the kind of the change, one line for each unit touched, that
    names it and the unit that goes with it, and the item's JSON.  The clock shows
    the loop and, to the nearest millisecond, the loop divided by 22.  Missing: the
    time is not the one of the exported tables. *)
Theorem C132_partial : forall jt jg ji dp dc i, 0 <= loop_of (it_event i) < 2 ^ 43 ->
  exists ms clock player body, nearest ms (500 * loop_of (it_event i)) 11 /\
    clock_line (match it_event i with ETracker _ _ => "TRCK" | EGame _ _ _ _ => "GAME" end) ms (loop_of (it_event i)) clock /\
    Forall2 tells (told dp dc (it_hint i)) body /\
    (forall l uid n x, it_event i = EGame l uid n x -> 0 <= uid -> player_line uid n player) /\
    event_canvas jt jg ji dp dc (Some i) =
      match it_event i with ETracker _ x => clock :: jt x | EGame _ _ _ x => player :: clock :: jg x end ++ title (it_hint i) :: body ++ ji i.
Proof. exact event_canvas_shown. Qed.
Print Assumptions C132_partial.
(** The time that the clock shows is determined by the loop, and later loops show
    later times. *)
Lemma clock_order : forall l l' ms ms', 0 <= l -> l < l' -> nearest ms (500 * l) 11 -> nearest ms' (500 * l') 11 -> ms + 44 < ms'.
Proof. unfold nearest. intros. lia. Qed.
Theorem C132_order_partial : forall l l' ms ms', 0 <= l -> nearest ms (500 * l) 11 -> nearest ms' (500 * l') 11 ->
  (l = l' -> ms = ms') /\ (l < l' -> ms + 44 < ms').
Proof. exact (fun l l' ms ms' H A B => conj (fun E => nearest_unique ms ms' (500 * l) 11 A (eq_ind_r (fun x => nearest ms' (500 * x) 11) B E)) (fun L => clock_order l l' ms ms' H L A B)). Qed.
Print Assumptions C132_order_partial.

(** Without a current event the pane is empty. *)
Definition pane_of (f : frame) : list string :=
  event_canvas (fun _ => ["{tracker}"]) (fun _ => ["{game}"]) (fun _ => ["{item}"]) (fun _ => "Vec3D") (fun _ => "CmdEvent") (fr_event f).
Definition pane_of_item (i : item) : list string :=
  event_canvas (fun _ => ["{tracker}"]) (fun _ => ["{game}"]) (fun _ => ["{item}"]) (fun _ => "Vec3D") (fun _ => "CmdEvent") (Some i).
(** The frames of C104's example, and the items of a history of ten events. *)
Example C132_example : map pane_of (skipn 4 w_frames) =
  [["TRCK[     0.045s][00000001]: "; "{tracker}"; "No unit change hint"; "{item}"];
   ["UID[02                 eve]"; "GAME[     0.091s][00000002]: "; "{game}"; "Selection"; "Unit:        7:     SCV"; "{item}"];
   ["UID[00                 ana]"; "GAME[     0.136s][00000003]: "; "{game}"; "No unit change hint"; "{item}"];
   []].
Proof. vm_compute. reflexivity. Qed.
Example C132_history : map (fun i => loop_of (it_event i)) (snd (ex_run ex_events)) = [0; 0; 1; 1; 2; 2; 3; 4; 4; 5] /\
  option_map pane_of_item (nth_error (snd (ex_run ex_events)) 4) =
    Some ["TRCK[     0.091s][00000002]: "; "{tracker}"; "Registered: "; "[       9:   Drone]. creator: None"; "{item}"] /\
  option_map pane_of_item (nth_error (snd (ex_run ex_events)) 6) =
    Some ["UID[00             unknown]"; "GAME[     0.136s][00000003]: "; "{game}"; "Selection"; "Unit:        7:     SCV"; "Unit:        8:     SCV"; "{item}"].
Proof. vm_compute. auto. Qed.

(** C132, refuted as stated: for a tracker event of loop 1000 the pane shows
    45.455 seconds, the tables 68. *)
Definition late_item : item := mk_item (ETracker 1000 (TUnitDone (mk_unit_done 7 1))) HNone.
Lemma late_shown : In (clock_text "TRCK" 1000) (pane_of_item late_item) /\ clock_line "TRCK" 45455 1000 (clock_text "TRCK" 1000) /\ tracker_seconds 1000 = 68.
Proof.
  split; [left; reflexivity|]. split; [|vm_compute; reflexivity].
  assert (E : thousandths (pane_seconds 1000) = 45455) by (vm_compute; reflexivity). rewrite <- E. apply clock_text_line. lia.
Qed.
Lemma not_the_tables : ~ (forall jt jg ji dp dc l x h ms clock, 0 <= l < 2 ^ 43 ->
  In clock (event_canvas jt jg ji dp dc (Some (mk_item (ETracker l x) h))) -> clock_line "TRCK" ms l clock -> ms / 1000 = tracker_seconds l).
Proof.
  intros H. destruct late_shown as (A & B & C). unfold pane_of_item, late_item in A. assert (L : 0 <= 1000 < 2 ^ 43) by lia. specialize (H _ _ _ _ _ 1000 _ HNone 45455 _ L A B).
  rewrite C in H. discriminate.
Qed.
Theorem C132_refuted : ~ (forall jt jg ji dp dc l x h ms clock, 0 <= l < 2 ^ 43 ->
  In clock (event_canvas jt jg ji dp dc (Some (mk_item (ETracker l x) h))) -> clock_line "TRCK" ms l clock -> ms / 1000 = tracker_seconds l).
Proof. exact not_the_tables. Qed.
Print Assumptions C132_refuted.
