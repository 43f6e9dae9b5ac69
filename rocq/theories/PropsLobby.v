(** * C82, C83: the lobby and init data tables *)
From Coq Require Import Ascii.
From Verif Require Import Base Types Utf8 Events ConvertSpec VersionedEncode Versioned ByteTypes BitTypes BitEncode BitFacts Lobby DetailsData DetailsSpec DetailsFacts PropsDetails Rows LobbyRows.
#[local] Open Scope string_scope.
#[local] Open Scope Z_scope.
#[local] Open Scope list_scope.

(** C82, false: a details sector with a handle of less than eight bytes is
    accepted, and making the row panics. *)
Definition short_raw : val := VStruct (map (fun f => if String.eqb (fst f) "m_cache_handles" then (fst f, VOpt (Some (VList [VBytes [115; 50; 109; 97; 0; 0; 69]]))) else f)
  match example_raw (Some (VList [example_player [65] "ENone" "EWin" (Some (VInt 4))])) [84; 79] with VStruct fs => fs | _ => [] end).
Definition short_sector : list Z := Eval vm_compute in match vencode ba_GameSDetails short_raw with Some l => l | None => [] end.
Definition one_slot : init_data := mk_init 3 "00ff" "a.SC2Replay" 0 [mk_initial "Seb" None] (mk_description true 200 176) [mk_slot 2 (Some 0) 1 0 "h" (Some 4) "t"].
Theorem C82_short_refuted : exists m fs l d init x, bytes_ok l /\ details_new m fs l = Ok d /\ lobby_details_of init (joined_details d) = Ok [x] /\ lobby_row_of x = Panic.
Proof.
  exists Checked, 7, short_sector. eexists. exists one_slot. eexists.
  split; [apply BitFacts.byte_list_ok; vm_compute; reflexivity|]. split; [vm_compute; reflexivity|]. split; [vm_compute; reflexivity|]. vm_compute. reflexivity.
Qed.
Print Assumptions C82_short_refuted.
(** With handles of at least eight bytes (C74: they are shown in hexadecimal):
    every column shows the field of the lobby entry, the extension and region are
    those of the first handle, and the digests are those of all handles, joined
    with commas. *)
Theorem C82_lobby_row_partial : forall x ls, Forall2 (fun h l => read_hex h = Some l) (ld_handles x) ls -> Forall (fun l => (8 <= length l)%nat) ls ->
  exists r, lobby_row_of x = Ok r /\ lobby_row_shown x ls r.
Proof. exact lobby_row_ok. Qed.
Print Assumptions C82_lobby_row_partial.
(** Every shorter handle, wherever it is in the list, panics. *)
Theorem C82_short_handles_partial : forall x ls, Forall2 (fun h l => read_hex h = Some l) (ld_handles x) ls -> Exists (fun l => (length l < 8)%nat) ls -> lobby_row_of x = Panic.
Proof. exact lobby_row_short. Qed.
Print Assumptions C82_short_handles_partial.
Definition two_handles : list string := ["73326d6100004555de01"; "7332ff6100005553aa"].
Example C82_example : exists x r, ld_handles x = two_handles /\
  Forall2 (fun h l => read_hex h = Some l) two_handles [[115; 50; 109; 97; 0; 0; 69; 85; 222; 1]; [115; 50; 255; 97; 0; 0; 85; 83; 170]] /\
  lobby_row_of x = Ok r /\ lr_extension r = Some "s2ma" /\ lr_region r = Some "EU" /\ lr_handles r = "de01,aa".
Proof.
  exists (mk_lobby (mk_player "A" (mk_toon 2 0 1 7) "Zerg" (255, 1, 2, 3) 2 0 100 0 "Win" (Some 4) "") (mk_slot 2 (Some 0) 1 0 "h" (Some 4) "t") "T" (mk_description true 200 176) 5 6 "A" "" None None two_handles "sha" "f" 7 8).
  eexists. split; [reflexivity|]. split; [repeat constructor|]. split; [vm_compute; reflexivity|]. split; [reflexivity|]. split; reflexivity.
Qed.

(** C83.  One row for each user of the init data, in order, with its index. *)
Theorem C83_user_rows : forall x, (Z.of_nat (length (sy_user_initial_data (xi_sync x))) <= 2 ^ 32) ->
  length (user_rows_from 0 x (sy_user_initial_data (xi_sync x))) = length (sy_user_initial_data (xi_sync x)) /\
  forall i u, nth_error (sy_user_initial_data (xi_sync x)) i = Some u ->
    exists r, nth_error (user_rows_from 0 x (sy_user_initial_data (xi_sync x))) i = Some r /\ user_row_shown x i u r.
Proof. exact user_rows_ok. Qed.
Print Assumptions C83_user_rows.
Example C83_example : exists d, init_new Checked "a.SC2Replay" 3 "00ff" (example_sector (example_init (Some (bytes "CLAN")))) = Ok d /\
  user_rows_from 0 d (sy_user_initial_data (xi_sync d)) = [mk_user_row 3 "00ff" "a.SC2Replay" 0 "Seb" "CLAN" (Some (-5))].
Proof. eexists. split; [vm_compute; reflexivity|]. vm_compute. reflexivity. Qed.
