(** * C130: damaged and cut map files *)
From Verif Require Import Base Utf8 CacheFiles CacheSpec CacheFacts CacheCuts PropsCache.
#[local] Open Scope string_scope.
#[local] Open Scope Z_scope.
#[local] Open Scope list_scope.

(** C130, false: MapInfo is accepted with a size of -65537 x -65537 - smaller than
    nothing - and in a build with overflow checks the height map of that size then stops
    the program. *)
Theorem C130_no_crash_refuted : exists map_input rest m input, bytes_ok map_input /\ bytes_ok input /\ parse_map_info map_input = Ok (rest, m) /\ parse_height_map Checked input m = Panic.
Proof.
  exists (map_bytes (negative_map (-65537) (-65537))). eexists. eexists. exists (height_file (-65536) (-65536) []).
  split; [vm_compute; repeat (constructor; [split; [discriminate|reflexivity]|]); constructor|].
  split; [vm_compute; repeat (constructor; [split; [discriminate|reflexivity]|]); constructor|].
  split; [vm_compute; reflexivity|]. vm_compute. reflexivity.
Qed.
Print Assumptions C130_no_crash_refuted.

(** Apart from that no bytes stop the program. *)
Theorem C130_no_crash_partial : (forall input, parse_map_info input <> Panic) /\ (forall input, parse_document input <> Panic) /\
  (forall input m, parse_height_map Wrapping input m <> Panic) /\
  (forall map_input rest m input, parse_map_info map_input = Ok (rest, m) -> 0 <= mi_width m -> 0 <= mi_height m -> parse_height_map Checked input m <> Panic).
Proof.
  split; [exact map_info_calm|]. split; [exact document_calm|]. split; [intros input m; apply height_map_calm; discriminate|].
  intros map_input rest m input E Hw Hh. apply height_map_calm. intros _. destruct (map_info_bounds _ _ _ E) as (_ & ? & ? & _). lia.
Qed.
Print Assumptions C130_no_crash_partial.

(** And with overflow checks exactly the height maps that begin as one of that map and
    have more than 2^31 bytes of heights, reckoned with signs, do. *)
Theorem C130_panics_partial : forall map_input map_rest m input, bytes_ok input -> parse_map_info map_input = Ok (map_rest, m) ->
  (parse_height_map Checked input m = Panic <->
   ~ (- 2 ^ 31 <= 6 * ((mi_width m + 1) * (mi_height m + 1)) < 2 ^ 31) /\
   exists sixteen rest, length sixteen = 16%nat /\ input = ascii_bytes "HMAP" ++ [0x65; 0; 0; 0] ++ le32 (mi_width m + 1) ++ le32 (mi_height m + 1) ++ sixteen ++ rest).
Proof. exact height_map_panics. Qed.
Print Assumptions C130_panics_partial.
(** 6 * -19000 * -19000 is above 2^31, 6 * -18000 * -18000 is below: the first map stops the program, the second gives an error. *)
Example C130_panics_example :
  (exists m, parse_map_info (map_bytes (negative_map (-19001) (-19001))) = Ok ([], m) /\ parse_height_map Checked (height_file (-19000) (-19000) []) m = Panic) /\
  (exists m, parse_map_info (map_bytes (negative_map (-18001) (-18001))) = Ok ([], m) /\ parse_height_map Checked (height_file (-18000) (-18000) []) m = Err (EOther "T3HeightNotEnoughBytes")).
Proof. split; eexists; (split; [vm_compute; reflexivity|]); vm_compute; reflexivity. Qed.

(** A file that breaks off before the last byte that is read is refused. *)
Theorem C130_cut_map_info : forall input rest m k, parse_map_info input = Ok (rest, m) -> (k < length input - length rest)%nat -> exists e, parse_map_info (firstn k input) = Err e.
Proof. exact map_info_cut. Qed.
Print Assumptions C130_cut_map_info.
Theorem C130_cut_heights : forall bd map_input map_rest m input rest hm k, parse_map_info map_input = Ok (map_rest, m) -> 0 <= mi_width m -> 0 <= mi_height m ->
  parse_height_map bd input m = Ok (rest, hm) -> (k < length input - length rest)%nat -> exists e, parse_height_map bd (firstn k input) m = Err e.
Proof.
  intros bd mi mr m input rest hm k E Hw Hh. destruct (map_info_bounds _ _ _ E) as (_ & ? & ? & _). apply height_map_cut; lia.
Qed.
Print Assumptions C130_cut_heights.
Theorem C130_cut_document : forall f k, doc_file_ok f -> (k < length (doc_head f ++ doc_body f))%nat -> exists e, parse_document (firstn k (doc_head f ++ doc_body f)) = Err e.
Proof. exact document_cut. Qed.
Print Assumptions C130_cut_document.
Definition small_map : map_file := mk_map_file 24 [] 2 1 [1; 0; 0; 0; 1; 0; 0; 0] 2 (ascii_bytes "a") [] [0; 0; 0; 0; 0] [] [] 0 0 2 1.
Example C130_example_heights : exists m hm, parse_map_info (map_bytes small_map) = Ok ([], m) /\ 0 <= mi_width m /\ 0 <= mi_height m /\
  parse_height_map Checked (height_file 3 2 [0; 1; 2; 3; 4; 0] ++ [7; 7]) m = Ok ([7; 7], hm) /\ (67 < length (height_file 3 2 [0; 1; 2; 3; 4; 0] ++ [7; 7])%Z - 2)%nat.
Proof.
  eexists. eexists. split; [vm_compute; reflexivity|]. split; [cbn; lia|]. split; [cbn; lia|]. split; [vm_compute; reflexivity|]. apply Nat.ltb_lt. vm_compute. reflexivity.
Qed.
(** The map of 168 x 152 without its last byte, and the header in the middle of its last field. *)
Example C130_example : (exists m, parse_map_info (map_bytes (map_example 14 4 154 140)) = Ok ([], m) /\ 0 <= mi_width m /\ 0 <= mi_height m) /\
  (100 < length (doc_head doc_example ++ doc_body doc_example))%nat /\ doc_file_ok doc_example /\
  parse_map_info (firstn 60 (map_bytes (map_example 14 4 154 140))) = Err ENom.
Proof.
  split; [eexists; split; [vm_compute; reflexivity|]; cbn; lia|]. split; [apply Nat.ltb_lt; vm_compute; reflexivity|]. split; [exact doc_example_ok|]. vm_compute. reflexivity.
Qed.
