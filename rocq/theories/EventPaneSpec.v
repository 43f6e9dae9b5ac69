(** * What the event pane is meant to show *)
From Coq Require Import Ascii.
From Verif Require Import Base Events ConvertSpec State.
#[local] Open Scope string_scope.
#[local] Open Scope Z_scope.
#[local] Open Scope list_scope.

(** [q] is the only integer nearest to [n] / [d]. *)
Definition nearest (q n d : Z) : Prop := 2 * Z.abs (d * q - n) < d.
(** [s] is [t] after as many times [c] as are needed for [n] characters, all of
    them ASCII. *)
Definition filled (c : ascii) (n : nat) (t s : string) : Prop :=
  exists k, s = append (string_of_list_ascii (repeat c k)) t /\ ((k = 0 /\ n <= String.length t)%nat \/ String.length s = n).
(** A time in seconds, with three decimals. *)
Definition seconds_text (ms : Z) (s : string) : Prop :=
  exists d, s = append (decimal (ms / 1000)) (append "." d) /\ filled "0" 3 (decimal (ms mod 1000)) d.
(** The loop of an event. *)
Definition loop_of (e : sc2_event) : Z := match e with ETracker l _ => l | EGame l _ _ _ => l end.
(** The line of the clock. *)
Definition clock_line (kind : string) (ms l : Z) (s : string) : Prop :=
  exists t t' n, seconds_text ms t /\ filled " " 10 t t' /\ filled "0" 8 (decimal l) n /\
    s = append kind (append "[" (append t' (append "s][" (append n "]: ")))).
(** The line of the player: number and name, or "unknown". *)
Definition player_line (uid : Z) (name : option string) (s : string) : Prop :=
  exists d k, filled "0" 2 (decimal uid) d /\
    s = append "UID[" (append d (append (string_of_list_ascii (repeat " "%char k)) (append (match name with Some n => n | None => "unknown" end) "]"))).
(** A line names units, in this order: number and name, a colon and
    perhaps blanks between them. *)
Fixpoint names (us : list sc2_unit) (s : string) : Prop :=
  match us with
  | [] => True
  | u :: us' => exists a b k, s = append a (append (decimal (su_index u)) (append ":" (append (string_of_list_ascii (repeat " "%char k)) (append (su_name u) b)))) /\
      names us' b
  end.
(** [s] ends with [t]. *)
Definition ends_with (t s : string) : Prop := exists a, s = append a t.
(** The kind of change, in words. *)
Definition title (h : hint) : string :=
  match h with
  | HRegistered _ _ => "Registered: " | HPositions _ => "Unit positions: " | HTargetPoints _ => "Target Points: "
  | HTargetUnits _ _ => "Target Units" | HUnregistered _ _ => "Unregister" | HAbilities _ _ _ => "Abilities"
  | HSelection _ => "Selection" | HNone => "No unit change hint"
  end.
(** The units an item is about, line by line, each line with its last words; a
    position and a command are printed by [pos] and [cmd]. *)
Definition told (pos : vec3 -> string) (cmd : cmd_event -> string) (h : hint) : list (list sc2_unit * string) :=
  match h with
  | HRegistered u c => [(u :: match c with Some k => [k] | None => [] end, match su_ability u with Some s => append "Unit ability: " s | None => "" end)]
  | HPositions us => map (fun u => ([u], append "(pos: " (append (pos (su_pos u)) ")"))) us
  | HAbilities us e _ => map (fun u => ([u], append "(command: " (append (cmd e) ")"))) us
  | HTargetPoints us | HSelection us => map (fun u => ([u], su_name u)) us
  | HTargetUnits us t => map (fun u => ([u; t], append (su_name t) ")")) us
  | HUnregistered (Some k) d => [([d; k], append (su_name k) ")")]
  | HUnregistered None d => [([d], " (00000000)")]
  | HNone => []
  end.
Definition tells (x : list sc2_unit * string) (s : string) : Prop := names (fst x) s /\ ends_with (snd x) s.
