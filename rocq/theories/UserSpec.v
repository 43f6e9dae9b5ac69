(** * Choosing a user by name *)
From Verif Require Import Base Lobby Merge.
#[local] Open Scope Z_scope.
#[local] Open Scope list_scope.

(** [p] is the last player of the details with that name. *)
Definition last_named (name : string) (d : details) (p : player_details) : Prop :=
  exists l1 l2, de_players d = l1 ++ p :: l2 /\ pd_name p = name /\ ~ In name (map pd_name l2).
(** The two filters agree on all but the player. *)
Definition same_but_player (f f' : filters) : Prop :=
  fi_tag f' = fi_tag f /\ fi_min f' = fi_min f /\ fi_max f' = fi_max f /\ fi_type f' = fi_type f /\ fi_unit f' = fi_unit f /\
  fi_events f' = fi_events f /\ fi_stats f' = fi_stats f.
(** Every player of the details has a seat of the lobby, no two have the same,
    and the user on a seat has the number of the seat. *)
Definition seated (init : init_data) (d : details) : Prop :=
  NoDup (map pd_slot (de_players d)) /\
  forall p, In p (de_players d) -> exists q, pd_slot p = Some q /\
    (exists s, In s (id_slots init) /\ ls_slot s = Some q) /\
    forall s, In s (id_slots init) -> ls_slot s = Some q -> ls_user_id s = Some q.
