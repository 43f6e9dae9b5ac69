(** * C64, C65, C66: conversion to protocol-agnostic events *)
From Verif Require Import Base Types Utf8 BitSpec BitPacked BitProofs BitInterp Versioned ByteTypes BitTypes Dispatch BitEncode VersionedEncode Events Convert ConvertSpec ConvertFacts ConvertTracker.
#[local] Open Scope string_scope.
#[local] Open Scope Z_scope.
#[local] Open Scope list_scope.

(** C64.  Whatever the bits decode to, at either protocol, the conversion of a
    supported game event succeeds and the event stands for exactly the decoded
    value ([game_value], ConvertSpec.v); the only exception is a chat message
    that is not UTF-8, which shows its bytes.  Every other event is the
    "unsupported" error.  Nothing panics. *)
Theorem C64_game_conversion : forall m p c c' v, cursor_ok c -> bparse m (game_type p) c = Ok (c', v) ->
  if existsb (String.eqb (variant v)) supported_game_events then
    exists e, game_from v = Ok e /\
      (game_value e = v \/
       exists l, variant v = "ETriggerChatMessage" /\ v = VChoice "ETriggerChatMessage" (VStruct [("m_chat_message", VBytes l)]) /\
         from_utf8 l = Err EUtf8 /\ e = GTriggerChatMessage ("InvalidUTF8(" ++ debug_list l ++ ")")%string)
  else game_from v = Err EUnsupported.
Proof. exact game_from_parsed. Qed.
Print Assumptions C64_game_conversion.

(** A real event: one unit is selected; the decoded value converts. *)
Definition sample_delta : game_event := GSelectionDelta (mk_selection 10 0 SMNone [mk_subgroup 42 5 1 1] [786433]).
Example C64_example : exists bits c', bencode bp_GameEEventId 0 (game_value sample_delta) = Some bits /\
  bparse Checked (game_type P87702) (pack_bits bits, 0%nat) = Ok (c', game_value sample_delta) /\
  game_from (game_value sample_delta) = Ok sample_delta /\ variant (game_value sample_delta) = "ESelectionDelta".
Proof. eexists. eexists. split; [vm_compute; reflexivity|]. split; [vm_compute; reflexivity|]. split; vm_compute; reflexivity. Qed.
Example C64_unsupported : exists c' v, bparse Checked (game_type P87702) ([3; 0; 0], 0%nat) = Ok (c', v) /\ game_from v = Err EUnsupported.
Proof. eexists. eexists. split; [vm_compute; reflexivity|]. vm_compute; reflexivity. Qed.

(** C65.  A decoded tracker event other than PlayerStats and Upgrade converts to
    the event that stands for exactly the decoded value ([tracker_value]) when
    all its names are UTF-8, and is the UTF-8 error otherwise.  An Upgrade always
    converts; a name that is not UTF-8 shows its bytes. *)
Theorem C65_tracker_conversion : forall m p l r v, bytes_ok l -> vparse m (tracker_type p) l = Ok (r, v) ->
  variant v <> "EPlayerStats" ->
  if String.eqb (variant v) "EUpgrade" then
    exists e, tracker_from v = Ok (TUpgrade e) /\ ug_player_name e = None /\
      (tracker_value (TUpgrade e) = Some v \/
       exists p l c, v = VChoice "EUpgrade" (VStruct [("m_player_id", VInt p); ("m_upgrade_type_name", VBytes l); ("m_count", VInt c)]) /\
         from_utf8 l = Err EUtf8 /\ e = mk_upgrade p None (debug_list l) c)
  else
    (exists e, tracker_from v = Ok e /\ tracker_value e = Some v /\ all_utf8 v) \/
    (tracker_from v = Err EUtf8 /\ ~ all_utf8 v).
Proof.
  intros m p l r v Hl E Hv. pose proof (tracker_from_parsed m p l r v Hl E) as Hr. unfold tracker_result in Hr.
  destruct (String.eqb_spec (variant v) "EPlayerStats"); [contradiction|exact Hr].
Qed.
Print Assumptions C65_tracker_conversion.
Definition sample_born : tracker_event := TUnitBorn (mk_unit_born 5 1 "Zergling" 2 2 40 50 (Some 4) (Some 1) (Some "LarvaTrain")).
Definition sample_born_value : val := match tracker_value sample_born with Some v => v | None => VNull end.
Example C65_example : exists bs, vencode ba_ReplayTrackerEEventId sample_born_value = Some bs /\
  vparse Checked (tracker_type P75689) (bs ++ [7]) = Ok ([7], sample_born_value) /\ tracker_from sample_born_value = Ok sample_born.
Proof. eexists. split; [vm_compute; reflexivity|]. split; vm_compute; reflexivity. Qed.
(** The name [0xff] is not UTF-8. *)
Example C65_bad_name : exists bs v, vparse Checked (tracker_type P87702) bs = Ok ([], v) /\ tracker_from v = Err EUtf8.
Proof.
  destruct (vencode ba_ReplayTrackerEEventId (VChoice "EUnitTypeChange" (VStruct [("m_unit_tag_index", VInt 1); ("m_unit_tag_recycle", VInt 1); ("m_unit_type_name", VBytes [255])]))) as [bs|] eqn:E; [|vm_compute in E; discriminate].
  exists bs. vm_compute in E. injection E as <-. eexists. split; [vm_compute; reflexivity|]. vm_compute; reflexivity.
Qed.

(** C66.  A decoded PlayerStats event converts; each of its statistics is the
    wire field of the same name, in the same order, with the two supply values
    divided by 4096 and everything else unchanged ([shown_stat]). *)
Theorem C66_player_stats : forall m p l r v, bytes_ok l -> vparse m (tracker_type p) l = Ok (r, v) ->
  variant v = "EPlayerStats" ->
  exists id ss st, v = VChoice "EPlayerStats" (VStruct [("m_player_id", VInt id); ("m_stats", VStruct ss)]) /\
    tracker_from v = Ok (TPlayerStats (mk_player_stats id st)) /\
    map fst ss = map (fun x => ("m_score_value_" ++ fst x)%string) st /\
    forall n z, In (("m_score_value_" ++ n)%string, VInt z) ss -> stat n st = Some (shown_stat n z).
Proof.
  intros m p l r v Hl E Hv. pose proof (tracker_from_parsed m p l r v Hl E) as Hr. unfold tracker_result in Hr.
  rewrite Hv in Hr. exact Hr.
Qed.
Print Assumptions C66_player_stats.

(** The list by path names every statistic once, and each path is the name of
    the statistic it carries with [/] for one [_]. *)
Theorem C66_stats_by_path : forall m l r v ss st, bytes_ok l -> vparse m ba_ReplayTrackerSPlayerStats l = Ok (r, v) -> v = VStruct ss ->
  stats_from v = Ok st ->
  map (fun x => ("m_score_value_" ++ underscored (fst x))%string) (as_prop_name_value_vec st) = map fst ss /\
  forall path x, In (path, x) (as_prop_name_value_vec st) -> x = stat (underscored path) st.
Proof. exact stats_paths_parsed. Qed.
Print Assumptions C66_stats_by_path.

Definition sample_stats : val := VStruct (map (fun x => (snd (fst x), VInt (if (snd x : bool) then 50000 else 7))) stats_table).
Example C66_example : exists bs v (st : player_stats), vencode ba_ReplayTrackerEEventId (VChoice "EPlayerStats" (VStruct [("m_player_id", VInt 1); ("m_stats", sample_stats)])) = Some bs /\
  vparse Wrapping (tracker_type P87702) bs = Ok ([], v) /\ tracker_from v = Ok (TPlayerStats (mk_player_stats 1 st)) /\
  stat "food_made" st = Some 12 /\ stat "minerals_current" st = Some 7 /\ In ("food/made", Some 12) (as_prop_name_value_vec st).
Proof.
  eexists. eexists. eexists. split; [vm_compute; reflexivity|]. split; [vm_compute; reflexivity|]. split; [vm_compute; reflexivity|].
  split; [vm_compute; reflexivity|]. split; [vm_compute; reflexivity|]. apply (nth_error_In _ 30). vm_compute. reflexivity.
Qed.
