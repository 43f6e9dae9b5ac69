(** * The unit tests of /repo, run on the model

    Examples, not theorems: the assertions of the test modules of /repo hold of
    the model.  The byte vectors are in RepoTestBytes.v. *)
From Verif Require Import Base Types Utf8 Vlq BitPacked BitInterp BitTypes Versioned ByteTypes Dispatch Events Tags Convert Iterators CacheFiles RepoTestBytes.
#[local] Open Scope string_scope.
#[local] Open Scope Z_scope.
#[local] Open Scope list_scope.

(** src/lib.rs:248-268 [it_reads_v_int] *)
Example it_reads_v_int :
  (do (t, a) <- parse_vlq_int Checked rt_vlq_plain; do (t, b) <- parse_vlq_int Checked t; Ok (a, b)) = Ok (9, 22) /\
  (do (t, a) <- parse_vlq_int Checked rt_vlq_build; Ok a) = Ok 87702 /\
  (do (t, a) <- tagged_vlq_int Checked rt_vlq_tagged; Ok a) = Ok 87702.
Proof. vm_compute. repeat split. Qed.
(** src/bit_packed_decoder.rs:168-190 [it_reads_game_events] *)
Example it_reads_game_events :
  (do (t, delta) <- bparse Checked bp_SVarUint32 (rt_bits_game, 0%nat);
   do (t1, user) <- bparse Checked bp_ReplaySGameUserId t;
   do (t2, variant) <- parse_packed_int Checked t1 0 7;
   do four <- rtake_n_bits t2 4;
   do (t3, time) <- bparse Checked bp_Uint32 t2;
   Ok (delta, (hd 0 (fst t), snd t), user, snd t1, snd t2, variant, four, snd t3, time)) =
  Ok (VChoice "MUint6" (VInt 0), (0xf0, 0%nat), VStruct [("m_user_id", VInt 16)], 5%nat, 4%nat, 116, 6, 4%nat, VInt 1656011340).
Proof. vm_compute. reflexivity. Qed.
(** src/bit_packed_decoder.rs:191-238 [it_reads_init_data_properties] *)
Example it_reads_init_data_properties :
  (do (t, checksum) <- bparse Checked bp_Uint32 (rt_bits_init, 0%nat);
   do (t, len) <- parse_packed_int Checked t 0 5;
   do (_, l1) <- take_n_bits_into_i64 t 6;
   do (t, colors) <- bparse Checked bp_GameCAllowedColors t;
   do (_, l2) <- take_n_bits_into_i64 t 8;
   do (t, races) <- bparse Checked bp_CAllowedRaces t;
   do (_, l3) <- take_n_bits_into_i64 t 6;
   do (t, difficulty) <- bparse Checked bp_GameCAllowedDifficulty t;
   do (_, eight) <- take_n_bits_into_i64 t 8;
   do (t1, controls) <- bparse Checked bp_GameCAllowedControls t;
   do (_, two) <- take_n_bits_into_i64 t1 2;
   Ok (checksum, len, (l1, colors), (l2, races), (l3, difficulty), (snd t, hd 0 (fst t)), eight, match controls with VBytes l => Some (length l) | _ => None end, two)) =
  Ok (VInt 125118074, 16, (16, VInt 65279), (3, VInt 7), (32, VInt 4261871616), (4%nat, 0xf0), 255, Some 32%nat, 3).
Proof. vm_compute. reflexivity. Qed.
(** src/cache_handles/map_info.rs:287-296 [test_parse_map_info] *)
Example test_parse_map_info :
  (do (_, m) <- parse_map_info rt_map_info; Ok (mi_width m, mi_height m, mi_third m, mi_fourth m)) = Ok (168, 168, "Dark", "Zerus").
Proof. vm_compute. reflexivity. Qed.
(** src/cache_handles/t3_height_map.rs:106-165 [test_parse_map_info] *)
Example test_parse_height_map :
  (do (_, m) <- parse_map_info rt_map_info; do _ <- parse_height_map Checked rt_height_map m; Ok tt) = Err (EOther "T3HeightNotEnoughBytes") /\
  169 * 169 * 6 = 171366 /\ (length rt_height_map - 32 = 168)%nat.
Proof. vm_compute. repeat split. Qed.
(** src/cache_handles/document_header.rs:247-256 [test_parse_document_header] *)
Example test_parse_document_header :
  (do (_, h) <- parse_document rt_document; Ok (dh_name h, dh_mod h)) = Ok ("Tokamak LE", "bnet:Void (Mod)/0.0/999,file:Mods/Void.SC2Mod").
Proof. vm_compute. reflexivity. Qed.
(** src/versions/mod.rs:137-166 [it_reads_tracker_events] *)
Example it_reads_tracker_events :
  (do (t, x) <- parse_event_pair Checked P87702 rt_tracker; do (t, y) <- parse_event_pair Checked P87702 t;
   do x <- tracker_from (snd x); do y <- tracker_from (snd y); Ok (x, y)) = Ok (TPlayerSetup (mk_player_setup 1 1 (Some 0) (Some 0)), TPlayerSetup (mk_player_setup 2 1 (Some 1) (Some 1))).
Proof. vm_compute. reflexivity. Qed.
