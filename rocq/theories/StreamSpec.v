(** * Specification of the event sectors of a replay

    A sector is a sequence of events, each preceded by the number of game loops
    since the previous one; game and message events also name their user and
    start on a byte boundary.  No decoder appears here. *)
From Verif Require Import Base Types BitSpec BitFormat VersionedSpec ByteTypes BitTypes.
#[local] Open Scope string_scope.
#[local] Open Scope Z_scope.
#[local] Open Scope list_scope.

(** [bs] is the tracker sector of the events [evs] (delta and value). *)
Inductive tracker_sector : list (Z * val) -> list Z -> Prop :=
| ts_nil : tracker_sector [] []
| ts_cons : forall d size v evs b1 b2 bs,
    venc true ba_SVarUint32 (VChoice size (VInt d)) b1 ->
    venc true ba_ReplayTrackerEEventId v b2 ->
    tracker_sector evs bs -> tracker_sector ((d, v) :: evs) (b1 ++ b2 ++ bs).

(** [bits] are the bits of a sector of the events [evs] (delta, user and value)
    of type [t]. *)
Inductive user_sector (F : format) (t : bty) : list (Z * (Z * val)) -> list bool -> Prop :=
| us_nil : user_sector F t [] []
| us_cons : forall d size u v evs l1 l2 l3 pad bits,
    benc F bp_SVarUint32 0 (VChoice size (VInt d)) l1 ->
    benc F bp_ReplaySGameUserId (after 0 l1) (VStruct [("m_user_id", VInt u)]) l2 ->
    benc F t (after 0 (l1 ++ l2)) v l3 ->
    is_pad (after 0 (l1 ++ l2 ++ l3)) pad ->
    user_sector F t evs bits -> user_sector F t ((d, (u, v)) :: evs) (l1 ++ l2 ++ l3 ++ pad ++ bits).

(** Each event with the game loop it happens at: the sum of all deltas up to and
    including its own, starting from [l]. *)
Fixpoint at_loops {X} (l : Z) (evs : list (Z * X)) : list (Z * X) :=
  match evs with [] => [] | (d, x) :: evs' => (l + d, x) :: at_loops (l + d) evs' end.

(** The loops shown by the successive answers of an iterator. *)
Definition shown_loops {E} (outs : list (option (Z * E))) : list Z := flat_map (fun o => match o with Some (l, _) => [l] | None => [] end) outs.
