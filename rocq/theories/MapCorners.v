From Verif Require Import Base Utf8 CacheFiles CacheSpec CacheFacts.
#[local] Open Scope Z_scope.

Lemma playable_exact : forall bd input rest m x y, parse_map_info input = Ok (rest, m) -> 0 <= mi_left m -> 0 <= mi_bottom m -> is_i32 x -> is_i32 y ->
  - 2 ^ 31 + mi_left m <= x -> - 2 ^ 31 + mi_bottom m <= y ->
  playable_from_terrain bd m (x, y) = Ok (x - mi_left m, y - mi_bottom m).
Proof.
  intros bd input rest m x y E Hl Hb Hx Hy H1 H2. pose proof (map_info_bounds input rest m E) as (_ & B). unfold playable_from_terrain. cbn [fst snd]. unfold is_i32 in *.
  rewrite pair32_in; [reflexivity| |]; unfold is_i32; lia.
Qed.
Lemma playable_range : forall bd input rest m x y dx dy px py, parse_map_info input = Ok (rest, m) -> 0 <= mi_left m -> 0 <= mi_bottom m ->
  terrain_dim_playable bd m = Ok (dx, dy) -> 0 <= x <= mi_width m -> 0 <= y <= mi_height m -> playable_from_terrain bd m (x, y) = Ok (px, py) ->
  (0 <= px < dx <-> mi_left m <= x <= mi_right m) /\ (0 <= py < dy <-> mi_bottom m <= y <= mi_top m).
Proof.
  intros bd input rest m x y dx dy px py E Hl Hb Ed Hx Hy Ep. pose proof (map_info_bounds input rest m E) as (_ & B).
  destruct (map_info_sane bd input rest m E Hl Hb) as (a & b & _ & _ & _ & Ea & _ & A1 & A2). rewrite Ed in Ea. injection Ea as -> ->.
  rewrite (playable_exact bd input rest m x y E Hl Hb) in Ep; unfold is_i32; try lia. injection Ep as <- <-. lia.
Qed.
Lemma corner_exact : forall bd input rest m dx dy, parse_map_info input = Ok (rest, m) -> 0 <= mi_left m -> 0 <= mi_bottom m -> terrain_dim_playable bd m = Ok (dx, dy) ->
  terrain_right_top bd m = Ok (mi_width m + 1, mi_height m + 1) /\
  (terrain_right_top bd m = Ok (fst (terrain_left_bottom m) + dx, snd (terrain_left_bottom m) + dy) <-> mi_right m = mi_width m /\ mi_top m = mi_height m).
Proof.
  intros bd input rest m dx dy E Hl Hb Ed. pose proof (map_info_bounds input rest m E) as (_ & B).
  destruct (map_info_sane bd input rest m E Hl Hb) as (a & b & _ & _ & _ & Ea & _ & A1 & A2). rewrite Ed in Ea. injection Ea as -> ->.
  assert (R : terrain_right_top bd m = Ok (mi_width m + 1, mi_height m + 1)) by (unfold terrain_right_top; rewrite pair32_in; [reflexivity| |]; unfold is_i32; lia).
  split; [exact R|]. rewrite R. cbn [terrain_left_bottom fst snd]. split; [intros F; assert (mi_width m + 1 = mi_left m + (a + 1) /\ mi_height m + 1 = mi_bottom m + (b + 1)) by (split; congruence); lia|intros [F G]; do 2 f_equal; lia].
Qed.
