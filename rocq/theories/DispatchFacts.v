From Verif Require Import Base BitSpec BitPacked BitProofs Types BitInterp BitFormat BitTotal BitEncode ByteTypes BitTypes BitFacts Dispatch.
#[local] Open Scope string_scope.
#[local] Open Scope Z_scope.
#[local] Open Scope list_scope.

Lemma dispatch_all : forall b, 0 <= b < two32 ->
  let p := if b <=? 75689 then P75689 else P87702 in
  dispatch_tracker b = p /\ dispatch_game b = p /\ dispatch_message b = p /\ dispatch_details b = p /\ dispatch_init b = p /\
  dispatch_tracker_iterator b = p /\ dispatch_game_iterator b = p.
Proof.
  intros b Hb p. unfold dispatch_tracker, dispatch_game, dispatch_message, dispatch_details, dispatch_init,
    dispatch_tracker_iterator, dispatch_game_iterator, p.
  destruct (Z.leb_spec 0 b); [|lia]. destruct (Z.leb_spec b 75689); cbn [andb]; destruct (existsb (Z.eqb b) known_builds); auto 10.
Qed.

(** Field of a bit-packed struct. *)
Definition bfield (n : string) (t : option bty) : option bty :=
  match t with
  | Some (BStruct fs) => match find (fun x => String.eqb (fst x) n) fs with Some (_, t') => Some t' | None => None end
  | _ => None
  end.
Definition belem (t : option bty) : option bty := match t with Some (BArray _ t') => Some t' | _ => None end.

(** The lobby slot layout the init data reader uses. *)
Definition slot_used (p : proto) : option bty :=
  belem (bfield "m_slots" (bfield "m_lobby_state" (bfield "m_sync_lobby_state" (Some (init_type p))))).

Definition slot_value : val := VStruct [
  ("m_control", VInt 2); ("m_user_id", VOpt (Some (VInt 1))); ("m_team_id", VInt 1); ("m_color_pref", VStruct [("m_color", VOpt (Some (VInt 3)))]);
  ("m_race_pref", VStruct [("m_race", VOpt None)]); ("m_difficulty", VInt 3); ("m_ai_build", VInt 0); ("m_handicap", VInt 100);
  ("m_observe", VEnum "ENone"); ("m_logo_index", VInt 0); ("m_hero", VBytes [72]); ("m_skin", VBytes [72]); ("m_mount", VBytes [72]);
  ("m_artifacts", VList []); ("m_working_set_slot_id", VOpt (Some (VInt 1))); ("m_rewards", VList []); ("m_toon_handle", VBytes [49]);
  ("m_licenses", VList []); ("m_tandem_leader_id", VOpt None); ("m_commander", VBytes [65]); ("m_commander_level", VInt 0);
  ("m_has_silence_penalty", VBool false); ("m_tandem_id", VOpt None); ("m_commander_mastery_level", VInt 0);
  ("m_commander_mastery_talents", VList []); ("m_trophy_id", VInt 0); ("m_reward_overrides", VList [])].
Definition slot_bits : list bool := match bencode bp75_GameSLobbySlot 0 slot_value with Some l => l | None => [] end.
Definition slot_cursor : cursor := (to_bytes slot_bits, 0%nat).

Lemma slot_own_ok : bparse Checked bp75_GameSLobbySlot slot_cursor = Ok (advance slot_cursor (length slot_bits), slot_value).
Proof. vm_compute. reflexivity. Qed.
Lemma slot_used_fails : forall m, bparse m bp_GameSLobbySlot slot_cursor = Err ENom.
Proof. intros [|]; vm_compute; reflexivity. Qed.
Lemma slot_used_eq : slot_used P75689 = Some bp_GameSLobbySlot.
Proof. reflexivity. Qed.
Lemma slot_cursor_ok : cursor_ok slot_cursor.
Proof. split; [|vm_compute; lia]. apply byte_list_ok. vm_compute. reflexivity. Qed.

Lemma own_layout_false : ~ forall t m c c' v, slot_used P75689 = Some t -> cursor_ok c ->
  bparse m bp75_GameSLobbySlot c = Ok (c', v) -> bparse m t c = Ok (c', v).
Proof.
  intros Hr. specialize (Hr _ Checked _ _ _ slot_used_eq slot_cursor_ok slot_own_ok).
  rewrite slot_used_fails in Hr. discriminate.
Qed.

Lemma game_own_layout : forall b m c, 0 <= b <= 75689 ->
  bparse m (game_type (dispatch_game b)) c = bparse m bp75_GameEEventId c /\
  game_type (dispatch_game_iterator b) = game_type (dispatch_game b).
Proof.
  intros b m c Hb. unfold dispatch_game, dispatch_game_iterator.
  destruct (Z.leb_spec 0 b); [|lia]. destruct (Z.leb_spec b 75689); [|lia]. split; reflexivity.
Qed.
