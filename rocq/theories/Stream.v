(** * Reading a stream of events

    The tracker and game iterators are the same code around different parsers;
    so are the batch readers.  Both are modelled once, over the parser of one
    event and the conversion of one decoded value; Iterators.v instantiates
    them. *)
From Verif Require Import Base.
#[local] Open Scope Z_scope.

Section Stream.
  Context {C X E : Type}.
  Variable at_end : C -> bool.                         (* no byte is left *)
  Variable size : C -> nat.                            (* bytes left *)
  Variable parse : C -> outcome (C * (Z * X)).         (* delta and decoded event *)
  Variable convert : X -> outcome E.

  (** Where the iterator is and the loop it has reached
      ([event_data[byte_index..]], [bit_index] and [event_loop]).
      Simplification: [event_loop] is an unbounded integer; IteratorStreams.v proves (C67)
      that it stays below 2^63 for every sector below 2^32 bytes. *)
  Definition sstate : Type := (C * Z)%type.

  (** Model of src/tracker_events/iterator.rs:35-61 [read_versioned_tracker_event]
      and src/game_events/iterator.rs:41-78 [read_versioned_game_event]: position
      and loop are advanced before [event.try_into()?]. *)
  Definition read_versioned (s : sstate) : outcome E * sstate :=
    match parse (fst s) with
    | Ok (c', (delta, x)) => (convert x, (c', snd s + delta))
    | Err e => (Err e, s)
    | Panic => (Panic, s)
    end.

  (** Model of src/tracker_events/iterator.rs:66-92 and
      src/game_events/iterator.rs:84-133 [get_next_event].  Each round of the
      [loop] consumes a byte, so [size] rounds are enough (StreamFacts.v proves
      that fuel never runs out). *)
  Fixpoint next_fuel (fuel : nat) (s : sstate) : outcome (option (Z * E) * sstate) :=
    if at_end (fst s) then Ok (None, s)
    else match fuel with
         | O => Err (EOther "out of fuel")
         | S f =>
             match read_versioned s with
             | (Ok e, s') => Ok (Some (snd s', e), s')
             | (Err EUnsupported, s') => next_fuel f s'
             | (Err _, s') => Ok (None, s')
             | (Panic, _) => Panic
             end
         end.
  Definition get_next_event (s : sstate) : outcome (option (Z * E) * sstate) := next_fuel (S (size (fst s))) s.

  (** Model of src/versions/protocol87702/events/tracker/mod.rs:27-50
      [read_tracker_events], src/versions/protocol87702/events/game/mod.rs:40-67
      and src/versions/protocol75689/mod.rs:1221-1251 [read_events], and
      src/versions/protocol87702/events/message/mod.rs:29-59 [read_events], after
      the sector has been extracted. *)
  Fixpoint batch_fuel (fuel : nat) (c : C) : outcome (list (Z * E)) :=
    match fuel with
    | O => Err (EOther "out of fuel")
    | S f =>
        do (c', (delta, x)) <- parse c;
        do here <- match convert x with Ok e => Ok [(delta, e)] | Err _ => Ok [] | Panic => Panic end;
        if at_end c' then Ok here
        else do more <- batch_fuel f c'; Ok (here ++ more)
    end.
  Definition read_batch (c : C) : outcome (list (Z * E)) := batch_fuel (S (size c)) c.

  (** The results of [n] successive calls of [get_next_event]. *)
  Fixpoint calls (n : nat) (s : sstate) : outcome (list (option (Z * E))) :=
    match n with
    | O => Ok []
    | S n' => do (r, s') <- get_next_event s; do rs <- calls n' s'; Ok (r :: rs)
    end.

  (** ** Specification *)

  (** [c] holds the events [evs] one after the other, then [r]. *)
  Inductive holds : C -> list (Z * X) -> C -> Prop :=
  | holds_nil : forall c, holds c [] c
  | holds_cons : forall c c' r d x evs, at_end c = false -> parse c = Ok (c', (d, x)) -> holds c' evs r -> holds c ((d, x) :: evs) r.

  (** Each event with the sum of all deltas up to and including its own. *)
  Fixpoint cumulate (l : Z) (evs : list (Z * X)) : list (Z * X) :=
    match evs with [] => [] | (d, x) :: evs' => (l + d, x) :: cumulate (l + d) evs' end.

  (** The convertible ones among them. *)
  Definition converted (evs : list (Z * X)) : list (Z * E) :=
    flat_map (fun ev => match convert (snd ev) with Ok e => [(fst ev, e)] | _ => [] end) evs.

  (** What each event makes the iterator return: the event, nothing, or [None]. *)
  Definition outputs (evs : list (Z * X)) : list (option (Z * E)) :=
    flat_map (fun ev => match convert (snd ev) with Ok e => [Some (fst ev, e)] | Err EUnsupported => [] | _ => [None] end) evs.
End Stream.
