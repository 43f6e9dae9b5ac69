(** * Facts about the map files *)
From Verif Require Import Base Utf8 Utf8Facts CacheFiles CacheSpec.
#[local] Open Scope string_scope.
#[local] Open Scope Z_scope.
#[local] Open Scope list_scope.

(** ** Small parsers *)
Lemma p_tag_app : forall t r, p_tag t (t ++ r) = Ok r.
Proof. induction t as [|a t IH]; intros r; [reflexivity|]. cbn [app p_tag]. now rewrite Z.eqb_refl. Qed.
Lemma p_tag_sound : forall t l r, p_tag t l = Ok r -> l = t ++ r.
Proof.
  induction t as [|a t IH]; intros l r E; cbn [p_tag] in E; [injection E as <-; reflexivity|]. destruct l as [|b l]; [discriminate|]. destruct (Z.eqb_spec a b) as [->|]; [|discriminate]. cbn [app]. f_equal. now apply IH.
Qed.
Lemma p_take_app : forall n t r, length t = n -> p_take n (t ++ r) = Ok (r, t).
Proof.
  intros n t r <-. unfold p_take. rewrite app_length. replace (length t <=? length t + length r)%nat with true by (symmetry; apply Nat.leb_le; lia).
  rewrite skipn_app, skipn_all, Nat.sub_diag, firstn_app, firstn_all, Nat.sub_diag. cbn [skipn firstn app]. now rewrite app_nil_r.
Qed.
Lemma p_take_sound : forall n l r t, p_take n l = Ok (r, t) -> l = t ++ r /\ length t = n.
Proof.
  intros n l r t E. unfold p_take in E. destruct (Nat.leb_spec n (length l)); [|discriminate]. injection E as <- <-. split; [symmetry; apply firstn_skipn|rewrite firstn_length; lia].
Qed.
Lemma p_while_app : forall f t b r, Forall (fun x => f x = true) t -> f b = false -> p_while f (t ++ b :: r) = (b :: r, t).
Proof. intros f t b r Ht Hb. induction Ht as [|x t Hx Ht IH]; cbn [app p_while]; [now rewrite Hb|]. now rewrite Hx, IH. Qed.
Lemma p_while_sound : forall f l r t, p_while f l = (r, t) -> l = t ++ r.
Proof.
  intros f. induction l as [|b l IH]; intros r t E; cbn [p_while] in E; [injection E as <- <-; reflexivity|]. destruct (f b); [|injection E as <- <-; reflexivity].
  destruct (p_while f l) as [r' t'] eqn:El. injection E as <- <-. cbn [app]. f_equal. now apply IH.
Qed.
Lemma le32_length : forall z, length (le32 z) = 4%nat.
Proof. reflexivity. Qed.
Lemma le32_value : forall z, is_i32 z -> le_i32 (le32 z) = z.
Proof. intros z Hz. unfold is_i32 in Hz. unfold le_i32, le32, as_i32, two32. cbn [le_bytes]. dlia. Qed.
Lemma le16_value : forall z, 0 <= z < 65536 -> le_bytes (le16 z) = z.
Proof. intros z Hz. unfold le16. cbn [le_bytes]. dlia. Qed.
Lemma p_i32_app : forall z r, is_i32 z -> p_i32 (le32 z ++ r) = Ok (r, z).
Proof. intros z r Hz. unfold p_i32. rewrite p_take_app by reflexivity. cbn [obind]. now rewrite le32_value. Qed.
Lemma p_u16_app : forall z r, 0 <= z < 65536 -> p_u16 (le16 z ++ r) = Ok (r, z).
Proof. intros z r Hz. unfold p_u16. rewrite p_take_app by reflexivity. cbn [obind]. now rewrite le16_value. Qed.
Lemma le_i32_range : forall l, is_i32 (le_i32 l).
Proof. intros l. unfold is_i32, le_i32, as_i32, two32. pose proof (Z.mod_pos_bound (le_bytes l + 2147483648) 4294967296). lia. Qed.
Lemma p_i32_sound : forall l r z, p_i32 l = Ok (r, z) -> is_i32 z /\ exists t, l = t ++ r /\ length t = 4%nat /\ z = le_i32 t.
Proof.
  intros l r z E. unfold p_i32 in E. apply obind_ok in E as ([r' t] & E & E2). injection E2 as <- <-. apply p_take_sound in E as [El Ht]. split; [apply le_i32_range|]. exists t. auto.
Qed.
Lemma p_cstring_app : forall s r, cstring s -> p_cstring (s ++ [0] ++ r) = Ok (r, from_utf8_lossy s).
Proof.
  intros s r [_ Hs]. unfold p_cstring. cbn [app]. rewrite p_while_app; [|apply Forall_forall; intros x Hx; apply negb_true_iff, Z.eqb_neq; intros ->; contradiction|reflexivity].
  change (0 :: r) with ([0] ++ r). rewrite p_take_app by reflexivity. reflexivity.
Qed.

(** ** MapInfo *)
Ltac parse_step := match goal with
  | E : (let (_, _) := ?x in _) = Ok _ |- _ => destruct x
  | E : obind _ _ = Ok _ |- _ => apply obind_ok in E as ([? ?] & ? & E)
  | E : obind _ _ = Ok _ |- _ => apply obind_ok in E as (? & ? & E)
  | E : (if ?b then _ else _) = Ok _ |- _ => let H := fresh "C" in destruct b eqn:H; [discriminate E|]
  end.
Definition map_i32 (m : map_info) : Prop :=
  is_i32 (mi_width m) /\ is_i32 (mi_height m) /\ is_i32 (mi_left m) /\ is_i32 (mi_bottom m) /\ is_i32 (mi_right m) /\ is_i32 (mi_top m).
Lemma map_info_bounds : forall input rest m, parse_map_info input = Ok (rest, m) ->
  map_i32 m /\ mi_width m <= 256 /\ mi_height m <= 256 /\ mi_left m < mi_right m <= mi_width m /\ mi_bottom m < mi_top m <= mi_height m.
Proof.
  intros input rest m E. unfold parse_map_info in E. repeat parse_step. injection E as _ <-. cbn [map_i32 mi_width mi_height mi_left mi_bottom mi_right mi_top] in *.
  repeat match goal with K : p_i32 _ = Ok _ |- _ => apply p_i32_sound in K as [K _] end.
  repeat match goal with K : _ || _ = false |- _ => apply orb_false_iff in K as [? ?] | K : (_ <? _) = false |- _ => apply Z.ltb_ge in K | K : (_ <=? _) = false |- _ => apply Z.leb_gt in K end.
  unfold map_i32, is_i32 in *. cbn [mi_width mi_height mi_left mi_bottom mi_right mi_top]. repeat split; lia.
Qed.
Lemma ovf_i32_in : forall bd z, is_i32 z -> ovf_i32 bd z = Ok z.
Proof. intros bd z Hz. unfold ovf_i32, in_i32. unfold is_i32 in Hz. replace (-2147483648 <=? z) with true by (symmetry; apply Z.leb_le; lia). replace (z <? 2147483648) with true by (symmetry; apply Z.ltb_lt; lia). reflexivity. Qed.
Lemma pair32_in : forall bd x y, is_i32 x -> is_i32 y -> pair32 bd x y = Ok (x, y).
Proof. intros bd x y Hx Hy. unfold pair32. now rewrite !ovf_i32_in. Qed.
Lemma map_info_sane : forall bd input rest m, parse_map_info input = Ok (rest, m) -> 0 <= mi_left m -> 0 <= mi_bottom m ->
  exists x y, cell_dim_playable bd m = Ok (x, y) /\ 0 < x <= mi_width m /\ 0 < y <= mi_height m /\
  terrain_dim_playable bd m = Ok (x + 1, y + 1) /\ terrain_dim_map bd m = Ok (mi_width m + 1, mi_height m + 1) /\
  mi_left m + x = mi_right m /\ mi_bottom m + y = mi_top m.
Proof.
  intros bd input rest m E Hl Hb. apply map_info_bounds in E as (_ & Hw & Hh & Hx & Hy). exists (mi_right m - mi_left m), (mi_top m - mi_bottom m).
  unfold cell_dim_playable, terrain_dim_playable, terrain_dim_map, cell_dim_playable. rewrite !pair32_in by (unfold is_i32; lia). cbn [obind]. rewrite !pair32_in by (unfold is_i32; lia). repeat split; lia.
Qed.
Lemma map_info_reads : forall f rest, map_file_ok f -> mf_s1 f <> [] ->
  (map_file_fits f -> parse_map_info (map_bytes f ++ rest) = Ok (rest, map_of_file f)) /\
  (~ map_file_fits f -> exists e, parse_map_info (map_bytes f ++ rest) = Err e).
Proof.
  intros f rest (Hv & Hw & Hh & Hl & Hb & Hr & Ht & Le & Lu & L5 & S1 & S2 & S3 & S4) H1. unfold map_bytes, parse_map_info. rewrite <- !app_assoc.
  change (ascii_bytes "IpaM") with [73; 112; 97; 77]. rewrite p_tag_app. cbn [obind]. rewrite p_i32_app by assumption. cbn [obind].
  assert (Ex : forall r, (if 24 <? mf_version f then do (t, _) <- p_take 8 (mf_extra f ++ r); Ok t else Ok (mf_extra f ++ r)) = Ok r).
  { intros r. destruct (24 <? mf_version f); [rewrite p_take_app by assumption; reflexivity|]. destruct (mf_extra f); [reflexivity|discriminate Le]. }
  rewrite Ex. cbn [obind]. rewrite !p_i32_app by assumption. cbn [obind]. rewrite p_i32_app by assumption. cbn [obind].
  destruct ((256 <? mf_width f) || (256 <? mf_height f)) eqn:Cs.
  { split; [|eauto]. intros (A & B & _). apply orb_true_iff in Cs as [Cs|Cs]; apply Z.ltb_lt in Cs; lia. }
  apply orb_false_iff in Cs as [Cw Ch]. apply Z.ltb_ge in Cw, Ch. rewrite p_take_app by assumption. cbn [obind].
  destruct (mf_s1 f) as [|b s1] eqn:Es; [contradiction|]. destruct S1 as [S1a S1b]. assert (Hb0 : b <> 0) by (intros ->; apply S1b; left; reflexivity).
  rewrite <- (app_comm_cons s1). rewrite (p_while_app (fun x => x =? 0) (repeat 0 (mf_padding f)) b); [|apply Forall_forall; intros x Hx; apply repeat_spec in Hx; subst; reflexivity|now apply Z.eqb_neq].
  rewrite (app_comm_cons s1). rewrite (p_cstring_app (b :: s1)) by (split; assumption). cbn [obind]. rewrite p_cstring_app by assumption. cbn [obind].
  rewrite p_take_app by assumption. cbn [obind]. rewrite p_cstring_app by assumption. cbn [obind]. rewrite p_cstring_app by assumption. cbn [obind].
  rewrite p_i32_app by assumption. cbn [obind]. rewrite p_i32_app by assumption. cbn [obind]. rewrite p_i32_app by assumption. cbn [obind]. rewrite p_i32_app by assumption. cbn [obind].
  destruct (Z.leb_spec (mf_right f) (mf_left f)); [split; [intros (A & B & C & D); lia|eauto]|]. destruct (Z.leb_spec (mf_top f) (mf_bottom f)); [split; [intros (A & B & C & D); lia|eauto]|].
  destruct (Z.ltb_spec (mf_width f) (mf_right f)); [split; [intros (A & B & C & D); lia|eauto]|]. destruct (Z.ltb_spec (mf_height f) (mf_top f)); [split; [intros (A & B & C & D); lia|eauto]|].
  split; [intros _; unfold map_of_file; now rewrite Es|]. intros Hn. exfalso. apply Hn. unfold map_file_fits. lia.
Qed.

(** ** t3HeightMap *)
Lemma height_loop_sound : forall n tail data rest data', height_loop n tail data = Ok (rest, data') ->
  rest = skipn (6 * n) tail /\ (6 * n <= length tail)%nat /\ exists new, data' = data ++ new /\ length new = n /\
  forall k, (k < n)%nat -> exists b, nth_error new k = Some b /\ nth_error tail (6 * k + 4) = Some b /\ b <= 4.
Proof.
  induction n as [|n IH]; intros tail data rest data' E; cbn [height_loop] in E.
  - injection E as <- <-. split; [reflexivity|]. split; [cbn; lia|]. exists []. rewrite app_nil_r. split; [reflexivity|]. split; [reflexivity|]. intros k Hk. lia.
  - apply obind_ok in E as ([t u] & Et & E). apply p_take_sound in Et as [-> Lu]. destruct (nth_error u 4) as [b|] eqn:Eb; [|discriminate]. destruct (Z.ltb_spec 4 b); [discriminate|].
    apply IH in E as (-> & Hlen & new & -> & Ln & Hk). split; [rewrite skipn_app; replace (6 * Datatypes.S n - length u)%nat with (6 * n)%nat by lia; rewrite (skipn_all2 u) by lia; reflexivity|].
    split; [rewrite app_length; lia|]. exists (b :: new). rewrite <- app_assoc. split; [reflexivity|]. split; [cbn; lia|].
    intros [|k] Hlt; [exists b; split; [reflexivity|]; split; [rewrite nth_error_app1 by (rewrite Lu; cbn; lia); exact Eb|lia]|].
    destruct (Hk k ltac:(lia)) as (c & A & B & C). exists c. split; [exact A|]. split; [|exact C]. rewrite nth_error_app2 by lia. replace (6 * Datatypes.S k + 4 - length u)%nat with (6 * k + 4)%nat by lia. exact B.
Qed.
Lemma height_map_sound : forall bd input m rest hm, parse_height_map bd input m = Ok (rest, hm) ->
  exists dims head tail area, terrain_dim_map bd m = Ok dims /\ hm_width hm = fst dims /\ hm_height hm = snd dims /\ is_i32 (fst dims) /\ is_i32 (snd dims) /\
  input = head ++ tail /\ length head = 32%nat /\ ovf_i32 bd (hm_width hm * hm_height hm) = Ok area /\
  (exists size, ovf_i32 bd (area * 6) = Ok size /\ as_u64 size <= Z.of_nat (length tail)) /\
  rest = skipn (6 * Z.to_nat area) tail /\ length (hm_data hm) = Z.to_nat area /\
  forall k, (k < Z.to_nat area)%nat -> exists b, nth_error (hm_data hm) k = Some b /\ nth_error tail (6 * k + 4) = Some b /\ b <= 4.
Proof.
  intros bd input m rest hm E. unfold parse_height_map in E.
  apply obind_ok in E as (t1 & E1 & E). apply p_tag_sound in E1 as ->. apply obind_ok in E as (t2 & E2 & E). apply p_tag_sound in E2 as ->.
  apply obind_ok in E as ([t3 w] & E3 & E). apply p_i32_sound in E3 as [Hw (b3 & -> & L3 & _)]. apply obind_ok in E as ([t4 h] & E4 & E). apply p_i32_sound in E4 as [Hh (b4 & -> & L4 & _)].
  apply obind_ok in E as (dims & Ed & E). destruct ((w =? fst dims) && (h =? snd dims)) eqn:Ewh; [|discriminate]. cbn [negb] in E. apply andb_true_iff in Ewh as [Ew Eh]. apply Z.eqb_eq in Ew, Eh. subst w h.
  apply obind_ok in E as ([t5 u] & E5 & E). apply p_take_sound in E5 as [-> L5]. apply obind_ok in E as (area & Ea & E). apply obind_ok in E as (size & Esz & E).
  destruct (Z.ltb_spec (Z.of_nat (length t5)) (as_u64 size)); [discriminate|]. apply obind_ok in E as (area' & Ea' & E). assert (area' = area) by congruence. subst area'.
  apply obind_ok in E as ([r data] & El & E). injection E as <- <-. apply height_loop_sound in El as (Er & _ & new & En & Ln & Hk). cbn [app] in En. subst data.
  exists dims, ([72; 77; 65; 80] ++ [101; 0; 0; 0] ++ b3 ++ b4 ++ u), t5, area. cbn [hm_width hm_height hm_data]. split; [exact Ed|]. split; [reflexivity|]. split; [reflexivity|]. split; [exact Hw|]. split; [exact Hh|].
  split; [now rewrite <- !app_assoc|]. split; [rewrite !app_length; cbn [length]; lia|]. split; [exact Ea|]. split; [exists size; split; [exact Esz|assumption]|]. split; [exact Er|]. split; [exact Ln|exact Hk].
Qed.
Lemma pair32_sound : forall bd x y d, is_i32 x -> is_i32 y -> pair32 bd x y = Ok d -> d = (x, y).
Proof. intros bd x y d Hx Hy E. rewrite pair32_in in E by assumption. congruence. Qed.
Lemma ovf_checked : forall z r, ovf_i32 Checked z = Ok r -> r = z /\ is_i32 z.
Proof. intros z r E. unfold ovf_i32 in E. destruct (in_i32 z) eqn:Hi; [|discriminate]. injection E as <-. split; [reflexivity|]. unfold in_i32 in Hi. apply andb_true_iff in Hi as [A B]. apply Z.leb_le in A. apply Z.ltb_lt in B. unfold is_i32. lia. Qed.
Lemma height_map_checked : forall input m rest hm, parse_height_map Checked input m = Ok (rest, hm) -> Z.of_nat (length input) < two63 ->
  hm_width hm = mi_width m + 1 /\ hm_height hm = mi_height m + 1 /\ Z.of_nat (length (hm_data hm)) = hm_width hm * hm_height hm.
Proof.
  intros input m rest hm E Hin. apply height_map_sound in E as (dims & head & tail & area & Ed & Ew & Eh & _ & _ & -> & Lh & Ea & (size & Es & Hs) & _ & Ld & _).
  apply ovf_checked in Ea as [-> _]. apply ovf_checked in Es as [-> Hi]. unfold terrain_dim_map, pair32 in Ed. apply obind_ok in Ed as (x & Ex & Ed). apply obind_ok in Ed as (y & Ey & Ed). injection Ed as <-.
  apply ovf_checked in Ex as [-> _]. apply ovf_checked in Ey as [-> _]. cbn [fst snd] in *. split; [exact Ew|]. split; [exact Eh|]. rewrite Ld. apply Z2Nat.id. unfold is_i32 in Hi. rewrite app_length in Hin. unfold two63 in Hin.
  unfold as_u64, two64 in Hs. destruct (Z.le_gt_cases 0 (hm_width hm * hm_height hm)) as [|Hneg]; [assumption|exfalso].
  rewrite <- (Z.mod_unique (hm_width hm * hm_height hm * 6) 18446744073709551616 (-1) (hm_width hm * hm_height hm * 6 + 18446744073709551616)) in Hs by lia. lia.
Qed.
Lemma height_map_lookup : forall bd input m rest hm, parse_height_map bd input m = Ok (rest, hm) -> -1 <= mi_width m <= 256 -> -1 <= mi_height m <= 256 ->
  hm_width hm = mi_width m + 1 /\ hm_height hm = mi_height m + 1 /\ Z.of_nat (length (hm_data hm)) = hm_width hm * hm_height hm /\
  (forall x y, 0 <= x < hm_width hm -> 0 <= y < hm_height hm -> exists b,
    nth_error (hm_data hm) (Z.to_nat (y * hm_width hm + x)) = Some b /\ nth_error input (Z.to_nat (32 + 6 * (y * hm_width hm + x) + 4)) = Some b /\ b <= 4) /\
  rest = skipn (Z.to_nat (32 + 6 * (hm_width hm * hm_height hm))) input.
Proof.
  intros bd input m rest hm E Bw Bh. apply height_map_sound in E as (dims & head & tail & area & Ed & Ew & Eh & _ & _ & -> & Lh & Ea & _ & Er & Ld & Hk).
  apply pair32_sound in Ed; [|unfold is_i32; lia|unfold is_i32; lia]. subst dims. cbn [fst snd] in *. rewrite ovf_i32_in in Ea by (rewrite Ew, Eh; unfold is_i32; nia). injection Ea as <-.
  assert (H0 : 0 <= hm_width hm * hm_height hm) by nia. split; [exact Ew|]. split; [exact Eh|]. split; [rewrite Ld; lia|]. split.
  - intros x y Hx Hy. destruct (Hk (Z.to_nat (y * hm_width hm + x))) as (b & A & B & C); [apply Z2Nat.inj_lt; nia|]. exists b. split; [exact A|]. split; [|exact C].
    rewrite nth_error_app2 by (rewrite Lh; apply Nat2Z.inj_le; rewrite Z2Nat.id by nia; nia). rewrite <- B. f_equal. rewrite Lh. assert (0 <= y * hm_width hm + x) by nia. lia.
  - rewrite Er, skipn_app, Lh. rewrite (skipn_all2 head) by lia. cbn [app]. f_equal. lia.
Qed.

(** ** Lossy text *)
Lemma lossy_valid_aux : forall n l, (length l <= n)%nat -> utf8_ok l = true -> lossy l = l.
Proof.
  induction n as [|n IH]; intros [|b0 l1] Hn Ho; [reflexivity|cbn in Hn; lia|reflexivity|]. cbn [length] in Hn. cbn [utf8_ok] in Ho. cbn [lossy].
  destruct (b0 <=? 127); [f_equal; apply IH; [lia|exact Ho]|].
  destruct ((194 <=? b0) && (b0 <=? 223)).
  { destruct l1 as [|b1 l2]; [discriminate|]. apply andb_true_iff in Ho as [Hc Ho]. rewrite Hc. cbn [length] in Hn. do 2 f_equal. apply IH; [lia|exact Ho]. }
  destruct ((224 <=? b0) && (b0 <=? 239)) eqn:E3.
  { destruct l1 as [|b1 [|b2 l3]]; [discriminate|discriminate|]. apply andb_true_iff in Ho as [Ho Ho3]. apply andb_true_iff in Ho as [Hs Hc].
    assert (Hs2 : second_ok b0 b1 = true).
    { unfold second_ok. destruct (b0 =? 224); [exact Hs|]. destruct (b0 =? 237); [exact Hs|]. apply andb_true_iff in E3 as [_ E3]. apply Z.leb_le in E3.
      destruct (Z.eqb_spec b0 240); [lia|]. destruct (Z.eqb_spec b0 244); [lia|]. exact Hs. }
    rewrite Hs2, Hc. cbn [length] in Hn. do 3 f_equal. apply IH; [lia|exact Ho3]. }
  destruct ((240 <=? b0) && (b0 <=? 244)) eqn:E4; [|discriminate].
  destruct l1 as [|b1 [|b2 [|b3 l4]]]; [discriminate|discriminate|discriminate|]. apply andb_true_iff in Ho as [Ho Ho4]. apply andb_true_iff in Ho as [Ho Hc3]. apply andb_true_iff in Ho as [Hs Hc2].
  assert (Hs2 : second_ok b0 b1 = true).
  { unfold second_ok. apply andb_true_iff in E4 as [E4 _]. apply Z.leb_le in E4. destruct (Z.eqb_spec b0 224); [lia|]. destruct (Z.eqb_spec b0 237); [lia|]. exact Hs. }
  rewrite Hs2, Hc2, Hc3. cbn [length] in Hn. do 4 f_equal. apply IH; [lia|exact Ho4].
Qed.
Lemma lossy_valid : forall l s, from_utf8 l = Ok s -> from_utf8_lossy l = s.
Proof. intros l s E. unfold from_utf8 in E. destruct (utf8_ok l) eqn:Ho; [|discriminate]. injection E as <-. unfold from_utf8_lossy. now rewrite (lossy_valid_aux (length l)). Qed.

(** ** DocumentHeader *)
Lemma field_loop_app : forall fields rest h, Forall field_ok fields ->
  field_loop (length fields) (flat_map field_bytes fields ++ rest) h = Ok (fold_left (fun h f => set_field h (from_utf8_lossy (fst f)) (from_utf8_lossy (snd f))) fields h).
Proof.
  induction fields as [|f fields IH]; intros rest h Hf; [reflexivity|]. inversion Hf as [|x y [Hn Hv] Hfs]; subst. cbn [length field_loop flat_map fold_left]. unfold field_bytes at 1. rewrite <- !app_assoc.
  rewrite p_u16_app by lia. cbn [obind]. rewrite Nat2Z.id, p_take_app by reflexivity. cbn [obind]. change (ascii_bytes "SUne") with [83; 85; 110; 101]. rewrite p_tag_app. cbn [obind].
  rewrite p_u16_app by lia. cbn [obind]. rewrite Nat2Z.id, p_take_app by reflexivity. cbn [obind]. now apply IH.
Qed.
Lemma fold_fields : forall fields h,
  fold_left (fun h f => set_field h (from_utf8_lossy (fst f)) (from_utf8_lossy (snd f))) fields h =
  mk_document (dh_x h) (dh_y h) (dh_epoch1 h) (dh_epoch2 h) (dh_mod h) (last_value "DocInfo/Name" fields (dh_name h)) (last_value "DocInfo/DescLong" fields (dh_long h)) (last_value "DocInfo/DescShort" fields (dh_short h)).
Proof.
  induction fields as [|f fields IH]; intros h; [destruct h; reflexivity|]. cbn [fold_left last_value]. rewrite IH. unfold set_field. destruct (String.eqb_spec (from_utf8_lossy (fst f)) "DocInfo/Name") as [->|]; [reflexivity|].
  destruct (String.eqb_spec (from_utf8_lossy (fst f)) "DocInfo/DescLong") as [->|]; [reflexivity|]. destruct (String.eqb_spec (from_utf8_lossy (fst f)) "DocInfo/DescShort"); reflexivity.
Qed.
Lemma document_reads : forall f rest, doc_file_ok f -> parse_document (doc_head f ++ doc_body f ++ rest) = Ok (doc_body f ++ rest, document_of_file f).
Proof.
  intros f rest (Hv & Hx & Hy & H1 & H2 & L1 & L2 & L3 & L12 & Ln & Hf). unfold doc_head, doc_body, parse_document. rewrite <- !app_assoc.
  change (ascii_bytes "H2CS") with [72; 50; 67; 83]. rewrite p_tag_app. cbn [obind]. rewrite p_i32_app by assumption. cbn [obind]. rewrite p_take_app by assumption. cbn [obind]. rewrite p_take_app by assumption. cbn [obind].
  rewrite p_i32_app by assumption. cbn [obind]. rewrite p_i32_app by assumption. cbn [obind]. rewrite p_take_app by assumption. cbn [obind]. rewrite p_i32_app by assumption. cbn [obind]. rewrite p_i32_app by assumption. cbn [obind].
  rewrite p_take_app by assumption. cbn [obind]. set (m := ascii_bytes "bnet:Void (Mod)/0.0/999,file:Mods/Void.SC2Mod"). cbn [app].
  rewrite p_while_app; [|apply Forall_forall; intros x Hin; assert (K : forallb (fun x => negb (x =? 0)) m = true) by reflexivity; rewrite forallb_forall in K; exact (K x Hin)|reflexivity].
  assert (Em : from_utf8_lossy m = void_mod) by reflexivity. rewrite Em. cbn [negb String.eqb].
  replace (void_mod =? void_mod)%string with true by (symmetry; apply String.eqb_refl). cbn [negb]. change (0 :: le16 ?z ++ ?r) with ([0] ++ le16 z ++ r). rewrite p_take_app by reflexivity. cbn [obind].
  rewrite p_u16_app by lia. cbn [obind]. change (0 :: 0 :: ?r) with ([0; 0] ++ r). rewrite p_tag_app. cbn [obind]. rewrite Nat2Z.id, field_loop_app by assumption. cbn [obind].
  rewrite fold_fields. reflexivity.
Qed.

Lemma field_loop_mod : forall n l h h', field_loop n l h = Ok h' -> dh_mod h' = dh_mod h.
Proof.
  induction n as [|n IH]; intros l h h' E; cbn [field_loop] in E; [injection E as <-; reflexivity|]. repeat parse_step. rewrite (IH _ _ _ E). unfold set_field.
  repeat match goal with |- context [if ?b then _ else _] => destruct b end; reflexivity.
Qed.
Lemma document_mod : forall input rest h, parse_document input = Ok (rest, h) -> dh_mod h = void_mod.
Proof.
  intros input rest h E. unfold parse_document in E. repeat parse_step. injection E as _ <-. 
  match goal with K : field_loop _ _ _ = Ok _ |- _ => apply field_loop_mod in K; rewrite K end. cbn.
  match goal with K : negb _ = false |- _ => apply negb_false_iff, String.eqb_eq in K; exact K end.
Qed.
