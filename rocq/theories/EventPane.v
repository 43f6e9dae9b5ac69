(** * The text of the viewer's event pane: examples/tui/mod.rs:201-381

    Not modelled: the colours, except that of the player's name (Viewer:
    [name_color]), the breaking of long lines by the pane, and that the two lookups
    of lines 203 and 205 in the tables of the syntax highlighter succeed (they
    panic otherwise; the tables belong to the [syntect] crate). *)
From Coq Require Import Ascii.
From Verif Require Import Base F32Round F64 F64Round Events Tags Lobby ConvertSpec Balance State.
#[local] Open Scope string_scope.
#[local] Open Scope Z_scope.
#[local] Open Scope list_scope.

(** ** Rust's [format!] (std, external) *)
(** [Display] of an integer: the decimal digits of Coq's library. *)
Definition show_int (z : Z) : string := if z <? 0 then append "-" (decimal (- z)) else decimal z.
(** The characters of a text: its bytes other than the continuation bytes of UTF-8. *)
Fixpoint char_len (s : string) : nat :=
  match s with
  | EmptyString => O
  | String c s' => if (128 <=? Z_of_ascii c) && (Z_of_ascii c <? 192) then char_len s' else Datatypes.S (char_len s')
  end.
Fixpoint copies (n : nat) (c : ascii) : string := match n with O => "" | Datatypes.S n' => String c (copies n' c) end.
(** [{:c>n}]: at least [n] characters, filled with [c] on the left. *)
Definition right_align (c : ascii) (n : nat) (s : string) : string := append (copies (n - char_len s) c) s.
(** [{:02}] of an integer: the zeros come after the sign. *)
Definition zero_pad2 (z : Z) : string :=
  if z <? 0 then append "-" (right_align "0" 1 (decimal (- z))) else right_align "0" 2 (decimal z).
(** [{:.3}] of a double: rounded to thousandths from its exact value. *)
Definition thousandths (x : f64) : Z := rne (Z.abs (fval64 x) * 1000) (2 ^ 1074).
Definition show_thousandths (n : Z) : string := append (decimal (n / 1000)) (append "." (right_align "0" 3 (decimal (n mod 1000)))).
Definition show_f64_3 (x : f64) : string :=
  match x with
  | S754_nan => "NaN"
  | S754_infinity s => if s then "-inf" else "inf"
  | S754_zero s | S754_finite s _ _ => append (if s then "-" else "") (show_thousandths (thousandths x))
  end.

(** ** The pane *)
(** [tracker_loop as f64 / 22.0]: lines 212 and 238. *)
Definition pane_seconds (l : Z) : f64 := f64_div (f64_of_int l) (f64_of_int 22).
(** [format!("{:>8}:{:>8}", unit.tag_index, unit.name)]. *)
Definition unit_text (u : sc2_unit) : string := append (right_align " " 8 (decimal (su_index u))) (append ":" (right_align " " 8 (su_name u))).
(** [[{game_secs:>10.3}s][{tracker_loop:0>8}]: ]: lines 213-215, 239-241. *)
Definition clock_text (kind : string) (l : Z) : string :=
  append kind (append "[" (append (right_align " " 10 (show_f64_3 (pane_seconds l))) (append "s][" (append (right_align "0" 8 (show_int l)) "]: ")))).

Section Pane.
  (** serde_json and the derived [Debug] (external). *)
  Variable json_tracker : tracker_event -> list string.
  Variable json_game : game_event -> list string.
  Variable json_item : item -> list string.
  Variable debug_pos : vec3 -> string.
  Variable debug_cmd : cmd_event -> string.

  (** Model of examples/tui/mod.rs:207-254. *)
  Definition event_lines (e : sc2_event) : list string :=
    match e with
    | ETracker l x => clock_text "TRCK" l :: json_tracker x
    | EGame l uid n x =>
        append "UID[" (append (zero_pad2 uid) (append (right_align " " 20 (match n with Some s => s | None => "unknown" end)) "]")) ::
        clock_text "GAME" l :: json_game x
    end.
  (** Model of examples/tui/mod.rs:255-362. *)
  Definition hint_lines (h : hint) : list string :=
    match h with
    | HRegistered u c =>
        let ability := match su_ability u with Some s => append "Unit ability: " s | None => "" end in
        ["Registered: ";
         append "[" (append (right_align " " 15 (unit_text u)) (append "]. creator: "
           (match c with Some k => append (unit_text k) ability | None => append "None" ability end)))]
    | HPositions us => "Unit positions: " :: map (fun u => append "Unit: " (append (unit_text u) (append " (pos: " (append (debug_pos (su_pos u)) ")")))) us
    | HTargetPoints us => "Target Points: " :: map (fun u => append "Unit: " (unit_text u)) us
    | HTargetUnits us t => "Target Units" :: map (fun u => append "Unit: " (append (unit_text u) (append " (target: " (append (unit_text t) ")")))) us
    | HUnregistered k d =>
        let killer := match k with Some k => append "Killer: " (unit_text k) | None => "" end in
        ["Unregister"; append "Unit: " (append (right_align "0" 8 (unit_text d)) (append " (" (append (right_align "0" 8 killer) ")")))]
    | HAbilities us e _ => "Abilities" :: map (fun u => append "Unit: " (append (unit_text u) (append " (command: " (append (debug_cmd e) ")")))) us
    | HSelection us => "Selection" :: map (fun u => append "Unit: " (unit_text u)) us
    | HNone => ["No unit change hint"]
    end.
  (** Model of examples/tui/mod.rs:201-381 [event_canvas]. *)
  Definition event_canvas (current : option item) : list string :=
    match current with
    | Some i => event_lines (it_event i) ++ hint_lines (it_hint i) ++ json_item i
    | None => []
    end.
End Pane.
