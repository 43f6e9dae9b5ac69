(** * C53-C55, C73, C117, C118: the map files of the cache *)
From Verif Require Import Base Utf8 CacheFiles CacheSpec CacheFacts LossySpec LossyFacts MapCorners.
#[local] Open Scope string_scope.
#[local] Open Scope Z_scope.
#[local] Open Scope list_scope.

(** A file: version 39, 168 x 152, texts "a", "", "Dark", "Zerus". *)
Definition map_example (left bottom right top : Z) : map_file :=
  mk_map_file 39 [0xc3; 0x38; 1; 0; 0; 0; 0; 0] 168 152 [1; 0; 0; 0; 1; 0; 0; 0] 2 (ascii_bytes "a") [] [0; 0; 0; 0; 0] (ascii_bytes "Dark") (ascii_bytes "Zerus") left bottom right top.
Definition negative_map (w h : Z) : map_file :=
  mk_map_file 24 [] w h [1; 0; 0; 0; 1; 0; 0; 0] 2 (ascii_bytes "a") [] [0; 0; 0; 0; 0] [] [] (w - 1) (h - 1) w h.
Lemma cstring_dec : forall s, forallb (fun x => (0 <? x) && (x <? 256)) s = true -> cstring s.
Proof.
  intros s Hs. rewrite forallb_forall in Hs. split; [apply Forall_forall; intros x Hx; specialize (Hs x Hx); apply andb_true_iff in Hs as [A B]; apply Z.ltb_lt in A, B; unfold byte_ok; lia|].
  intros Hx. specialize (Hs 0 Hx). discriminate.
Qed.
Lemma map_example_ok : forall l b r t, is_i32 l -> is_i32 b -> is_i32 r -> is_i32 t -> map_file_ok (map_example l b r t).
Proof. intros l b r t Hl Hb Hr Ht. unfold map_file_ok, map_example. cbn. repeat (split; [assumption || reflexivity || (unfold is_i32; lia) || (apply cstring_dec; reflexivity)|]). apply cstring_dec. reflexivity. Qed.

(** C53.  What is checked ... *)
Theorem C53_bounds : forall input rest m, parse_map_info input = Ok (rest, m) ->
  mi_width m <= 256 /\ mi_height m <= 256 /\ mi_left m < mi_right m <= mi_width m /\ mi_bottom m < mi_top m <= mi_height m.
Proof. intros input rest m E. exact (proj2 (map_info_bounds input rest m E)). Qed.
Print Assumptions C53_bounds.
(** ... does not make the playable area fit: left and bottom may be negative,
    and the subtraction may overflow. *)
Theorem C53_fits_refuted : exists input rest m x y, bytes_ok input /\ parse_map_info input = Ok (rest, m) /\ cell_dim_playable Checked m = Ok (x, y) /\ mi_width m < x.
Proof.
  exists (map_bytes (map_example (-10) 4 160 140)). eexists. eexists. eexists. eexists. split; [|split; [vm_compute; reflexivity|split; [vm_compute; reflexivity|vm_compute; reflexivity]]].
  vm_compute. repeat (constructor; [split; [discriminate|reflexivity]|]). constructor.
Qed.
Print Assumptions C53_fits_refuted.
Theorem C53_overflow_refuted : exists input rest m, bytes_ok input /\ parse_map_info input = Ok (rest, m) /\ cell_dim_playable Checked m = Panic /\ exists x y, cell_dim_playable Wrapping m = Ok (x, y) /\ x < 0.
Proof.
  exists (map_bytes (map_example (-2147483648) 4 160 140)). eexists. eexists. split; [|split; [vm_compute; reflexivity|split; [vm_compute; reflexivity|eexists; eexists; split; [vm_compute; reflexivity|vm_compute; reflexivity]]]].
  vm_compute. repeat (constructor; [split; [discriminate|reflexivity]|]). constructor.
Qed.
Print Assumptions C53_overflow_refuted.
(** With left and bottom at least 0 all dimensions are right, in every build. *)
Theorem C53_sane_partial : forall bd input rest m, parse_map_info input = Ok (rest, m) -> 0 <= mi_left m -> 0 <= mi_bottom m ->
  exists x y, cell_dim_playable bd m = Ok (x, y) /\ 0 < x <= mi_width m /\ 0 < y <= mi_height m /\
  terrain_dim_playable bd m = Ok (x + 1, y + 1) /\ terrain_dim_map bd m = Ok (mi_width m + 1, mi_height m + 1) /\
  mi_left m + x = mi_right m /\ mi_bottom m + y = mi_top m.
Proof. exact map_info_sane. Qed.
Print Assumptions C53_sane_partial.
Example C53_example : exists m, parse_map_info (map_bytes (map_example 14 4 154 140) ++ [9; 9]) = Ok ([9; 9], m) /\ (mi_width m, mi_left m, mi_third m, mi_fourth m) = (168, 14, "Dark", "Zerus").
Proof. eexists. split; vm_compute; reflexivity. Qed.

(** C73.  A MapInfo file with a non-empty first text is read as what it says,
    exactly when its rectangle is acceptable ... *)
Theorem C73_reads_partial : forall f rest, map_file_ok f -> mf_s1 f <> [] ->
  (map_file_fits f -> parse_map_info (map_bytes f ++ rest) = Ok (rest, map_of_file f)) /\
  (~ map_file_fits f -> exists e, parse_map_info (map_bytes f ++ rest) = Err e).
Proof. exact map_info_reads. Qed.
Print Assumptions C73_reads_partial.
(** ... but with an empty one the skipping of padding zeros eats its end and
    what follows: false in general. *)
Theorem C73_empty_refuted : exists f, map_file_ok f /\ map_file_fits f /\ mf_s1 f = [] /\ parse_map_info (map_bytes f) <> Ok ([], map_of_file f).
Proof.
  exists (mk_map_file 24 [] 168 152 [1; 0; 0; 0; 1; 0; 0; 0] 2 [] [] [0; 0; 0; 0; 0] (ascii_bytes "Dark") (ascii_bytes "Zerus") 14 4 154 140).
  split. { unfold map_file_ok. cbn. repeat (split; [reflexivity || (unfold is_i32; lia) || (apply cstring_dec; reflexivity)|]). apply cstring_dec. reflexivity. }
  split; [unfold map_file_fits; cbn; lia|]. split; [reflexivity|]. vm_compute. discriminate.
Qed.
Print Assumptions C73_empty_refuted.
Example C73_example : map_file_ok (map_example 14 4 154 140) /\ map_file_fits (map_example 14 4 154 140) /\ mf_s1 (map_example 14 4 154 140) <> [].
Proof. split; [apply map_example_ok; unfold is_i32; lia|]. split; [unfold map_file_fits; cbn; lia|discriminate]. Qed.

(** C54, false in release builds: the product of negative dimensions wraps. *)
Definition height_file (w h : Z) (heights : list Z) : list Z :=
  ascii_bytes "HMAP" ++ [0x65; 0; 0; 0] ++ le32 w ++ le32 h ++ repeat 0 16 ++ flat_map (fun z => [0xc5; 0xf1; 0x73; 0x9c; z; 0]) heights.
Theorem C54_count_refuted : exists map_input m input rest hm, parse_map_info map_input = Ok ([], m) /\
  parse_height_map Wrapping input m = Ok (rest, hm) /\ Z.of_nat (length (hm_data hm)) <> hm_width hm * hm_height hm.
Proof.
  exists (map_bytes (negative_map (-65537) (-65537))). eexists. exists (height_file (-65536) (-65536) []). eexists. eexists.
  split; [vm_compute; reflexivity|]. split; [vm_compute; reflexivity|]. vm_compute. discriminate.
Qed.
Print Assumptions C54_count_refuted.
(** In checked builds there is one height per vertex, for every map info ... *)
Theorem C54_count_partial : forall input m rest hm, parse_height_map Checked input m = Ok (rest, hm) -> Z.of_nat (length input) < two63 ->
  hm_width hm = mi_width m + 1 /\ hm_height hm = mi_height m + 1 /\ Z.of_nat (length (hm_data hm)) = hm_width hm * hm_height hm.
Proof. exact height_map_checked. Qed.
Print Assumptions C54_count_partial.
(** ... and in every build for maps that are not of negative size: each vertex
    has its own height, at most 4, from its own place in the file. *)
Theorem C54_lookup_partial : forall bd input m rest hm, parse_height_map bd input m = Ok (rest, hm) -> -1 <= mi_width m <= 256 -> -1 <= mi_height m <= 256 ->
  hm_width hm = mi_width m + 1 /\ hm_height hm = mi_height m + 1 /\ Z.of_nat (length (hm_data hm)) = hm_width hm * hm_height hm /\
  (forall x y, 0 <= x < hm_width hm -> 0 <= y < hm_height hm -> exists b,
    nth_error (hm_data hm) (Z.to_nat (y * hm_width hm + x)) = Some b /\ nth_error input (Z.to_nat (32 + 6 * (y * hm_width hm + x) + 4)) = Some b /\ b <= 4) /\
  rest = skipn (Z.to_nat (32 + 6 * (hm_width hm * hm_height hm))) input.
Proof. exact height_map_lookup. Qed.
Print Assumptions C54_lookup_partial.
Example C54_example : parse_height_map Checked (height_file 3 2 [0; 1; 2; 3; 4; 0] ++ [7]) (mk_map_info 24 2 1 "" "" "" "" 0 0 2 1) = Ok ([7], mk_height_map 3 2 [0; 1; 2; 3; 4; 0]).
Proof. vm_compute. reflexivity. Qed.

(** C55, false: the remainder is the input as it was before the fields. *)
Definition doc_example : doc_file := mk_doc_file 8 [0x32; 0x53; 0; 0] [1; 5; 0; 14] 93333 93333 [0; 0; 0; 0] 1489345767 1489345767 [2; 0; 0; 0; 0; 0; 0; 0; 1; 0; 0; 0]
  [(ascii_bytes "DocInfo/Name", ascii_bytes "Tokamak LE"); (ascii_bytes "MapInfo/Player03/Name", ascii_bytes "Hostile"); (ascii_bytes "DocInfo/DescLong", ascii_bytes "Wide")].
Lemma doc_example_ok : doc_file_ok doc_example.
Proof. unfold doc_file_ok. cbn. repeat (split; [reflexivity || (unfold is_i32; lia)|]). repeat constructor. Qed.
Theorem C55_rest_refuted : exists f rest r h, doc_file_ok f /\ parse_document (doc_head f ++ doc_body f ++ rest) = Ok (r, h) /\ r <> rest.
Proof. exists doc_example, [9]. eexists. eexists. split; [exact doc_example_ok|]. split; [vm_compute; reflexivity|]. discriminate. Qed.
Print Assumptions C55_rest_refuted.
(** What a well-formed header is read as (the last value of each field wins),
    and what is returned as the remainder. *)
Theorem C55_reads_partial : forall f rest, doc_file_ok f -> parse_document (doc_head f ++ doc_body f ++ rest) = Ok (doc_body f ++ rest, document_of_file f).
Proof. exact document_reads. Qed.
Print Assumptions C55_reads_partial.
(** Only headers of this one mod are accepted. *)
Theorem C55_mod : forall input rest h, parse_document input = Ok (rest, h) -> dh_mod h = "bnet:Void (Mod)/0.0/999,file:Mods/Void.SC2Mod".
Proof. exact document_mod. Qed.
Print Assumptions C55_mod.
(** Valid text is taken over unchanged. *)
Theorem C55_text : forall l s, from_utf8 l = Ok s -> from_utf8_lossy l = s.
Proof. exact lossy_valid. Qed.
Print Assumptions C55_text.
Example C55_example : doc_file_ok doc_example /\ dh_name (document_of_file doc_example) = "Tokamak LE" /\ dh_long (document_of_file doc_example) = "Wide" /\ dh_short (document_of_file doc_example) = "".
Proof. split; [exact doc_example_ok|]. repeat split; vm_compute; reflexivity. Qed.

(** C117.  A text of a map file is its bytes with what is no character replaced
    ([repaired], LossySpec.v, determines it), and is always valid text. *)
Theorem C117_repaired : forall l, bytes_ok l -> exists r, repaired l r /\ (forall r', repaired l r' -> r' = r) /\ from_utf8_lossy l = str_of_bytes r /\ from_utf8 r = Ok (from_utf8_lossy l).
Proof. exact lossy_spec. Qed.
Print Assumptions C117_repaired.
(** Such texts are what MapInfo files give. *)
Theorem C117_map_info : forall f rest rest' m, map_file_ok f -> mf_s1 f <> [] -> parse_map_info (map_bytes f ++ rest) = Ok (rest', m) ->
  forall s t, In (s, t) [(mf_s1 f, mi_first m); (mf_s2 f, mi_second m); (mf_s3 f, mi_third m); (mf_s4 f, mi_fourth m)] -> exists r, repaired s r /\ t = str_of_bytes r.
Proof.
  intros f rest rest' m Hf Hs E s t Hi. destruct (map_info_reads f rest Hf Hs) as [A B].
  assert (G : map_file_fits f).
  { assert (D : map_file_fits f \/ ~ map_file_fits f) by (unfold map_file_fits; lia). destruct D as [D|D]; [exact D|]. destruct (B D) as [e Ee]. congruence. }
  rewrite (A G) in E. assert (m = map_of_file f) by congruence. subst m. destruct Hf as (_ & _ & _ & _ & _ & _ & _ & _ & _ & _ & C1 & C2 & C3 & C4).
  assert (Q : forall x, cstring x -> exists r, repaired x r /\ from_utf8_lossy x = str_of_bytes r).
  { intros x [Hx _]. destruct (lossy_spec x Hx) as (r & R1 & _ & R2 & _). exists r. now split. }
  cbn in Hi. destruct Hi as [Hi|[Hi|[Hi|[Hi|[]]]]]; injection Hi as <- <-; apply Q; assumption.
Qed.
Print Assumptions C117_map_info.
(** A euro sign, one that breaks off, a lone byte, "a". *)
Example C117_example : from_utf8_lossy [0xe2; 0x82; 0xac; 0xe2; 0x82; 0xff; 97] = str_of_bytes (utf8_text [0x20ac; 0xfffd; 0xfffd; 97]) /\ bytes_ok [0xe2; 0x82; 0xac; 0xe2; 0x82; 0xff; 97].
Proof. split; [vm_compute; reflexivity|]. repeat constructor; discriminate. Qed.

(** C118.  The upper right corner of the playable vertices is the one of the
    whole map: false. *)
Theorem C118_corner_refuted : exists input rest m dx dy, bytes_ok input /\ parse_map_info input = Ok (rest, m) /\ 0 <= mi_left m /\ 0 <= mi_bottom m /\
  terrain_dim_playable Checked m = Ok (dx, dy) /\ terrain_right_top Checked m <> Ok (fst (terrain_left_bottom m) + dx, snd (terrain_left_bottom m) + dy).
Proof.
  exists (map_bytes (map_example 14 4 154 140)). eexists. eexists. eexists. eexists. split; [vm_compute; repeat (constructor; [split; [discriminate|reflexivity]|]); constructor|].
  split; [vm_compute; reflexivity|]. split; [vm_compute; discriminate|]. split; [vm_compute; discriminate|]. split; [vm_compute; reflexivity|]. vm_compute. discriminate.
Qed.
Print Assumptions C118_corner_refuted.
(** It is that corner exactly when the playable area reaches it. *)
Theorem C118_corner_partial : forall bd input rest m dx dy, parse_map_info input = Ok (rest, m) -> 0 <= mi_left m -> 0 <= mi_bottom m -> terrain_dim_playable bd m = Ok (dx, dy) ->
  terrain_right_top bd m = Ok (mi_width m + 1, mi_height m + 1) /\
  (terrain_right_top bd m = Ok (fst (terrain_left_bottom m) + dx, snd (terrain_left_bottom m) + dy) <-> mi_right m = mi_width m /\ mi_top m = mi_height m).
Proof. exact corner_exact. Qed.
Print Assumptions C118_corner_partial.
(** Playable coordinates count from the lower left corner of the playable area,
    for every vertex of which the subtraction does not overflow; a vertex of
    the map is playable exactly when its coordinates are inside of the playable size. *)
Theorem C118_playable_partial : forall bd input rest m x y, parse_map_info input = Ok (rest, m) -> 0 <= mi_left m -> 0 <= mi_bottom m -> is_i32 x -> is_i32 y ->
  - 2 ^ 31 + mi_left m <= x -> - 2 ^ 31 + mi_bottom m <= y ->
  playable_from_terrain bd m (x, y) = Ok (x - mi_left m, y - mi_bottom m).
Proof. exact playable_exact. Qed.
Print Assumptions C118_playable_partial.
Theorem C118_inside : forall bd input rest m x y dx dy px py, parse_map_info input = Ok (rest, m) -> 0 <= mi_left m -> 0 <= mi_bottom m ->
  terrain_dim_playable bd m = Ok (dx, dy) -> 0 <= x <= mi_width m -> 0 <= y <= mi_height m -> playable_from_terrain bd m (x, y) = Ok (px, py) ->
  (0 <= px < dx <-> mi_left m <= x <= mi_right m) /\ (0 <= py < dy <-> mi_bottom m <= y <= mi_top m).
Proof. exact playable_range. Qed.
Print Assumptions C118_inside.
Example C118_example : exists rest m, parse_map_info (map_bytes (map_example 14 4 154 140)) = Ok (rest, m) /\ 0 <= mi_left m /\ 0 <= mi_bottom m /\
  terrain_dim_playable Checked m = Ok (141, 137) /\ playable_from_terrain Checked m (20, 140) = Ok (6, 136).
Proof. eexists. eexists. split; [vm_compute; reflexivity|]. vm_compute. repeat split; discriminate. Qed.
