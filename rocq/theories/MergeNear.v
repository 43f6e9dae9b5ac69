(** * Merged order at any game loop

    Above 2^24 the merged iterator compares the tracker loop with the game loop
    rounded to single precision (src/state/mod.rs, [tracker_first] in Merge.v), so
    the order is not absolute (C23_rounding_refuted).  Here: by how much it can
    be wrong. *)
From Coq Require Import SpecFloat.
From Verif Require Import Base F32 F32Facts F32Round SecondsFacts.
From Verif Require Import Tags Events Maps Lobby Balance BitSpec BitPacked BitProofs BitFormat BitTypes Convert ConvertSpec ConvertFacts ConvertTracker Stream StreamFacts Iterators Dispatch Types VersionedSpec ByteTypes StreamSpec IteratorFacts IteratorStreams State StateFacts StateSpec StateSteps StateProofs StateMore Merge MergeSpec MergeFacts MergeStreams MergeProofs.
#[local] Open Scope Z_scope.
#[local] Open Scope list_scope.

(** [a] exceeds [b] by at most one part in 2^23. *)
Definition hardly_above (a b : Z) : Prop := a * 2 ^ 23 <= b * (2 ^ 23 + 1).
(** No number of the list exceeds a later one by more. *)
Definition nearly_in_order (l : list Z) : Prop := Sorted.StronglySorted hardly_above l.

Lemma rounded_loop : forall g, 0 <= g < two63 -> 2 ^ 24 * (f32_to_i64 (f32_mul (f32_of_int g) f32_one) - g) <= g /\ 2 ^ 24 * (g - f32_to_i64 (f32_mul (f32_of_int g) f32_one)) <= g.
Proof.
  intros l Hl. destruct (Z_le_gt_dec l (2 ^ 24)) as [S|G].
  { rewrite (exact_loop_24 l ltac:(lia)). lia. }
  destruct (f32_of_int_round l) as [R V]; [lia|]. rewrite f32_mul_one by exact V.
  destruct (is_round_error _ 1 _ ltac:(lia) R ltac:(lia)) as [E1 E2].
  { unfold two63 in Hl. change (2 ^ 276) with (2 ^ 127 * 2 ^ 149). lia. }
  rewrite Z.mul_1_l in E1, E2.
  assert (Lo : 2 ^ 24 * 2 ^ 149 <= fval (f32_of_int l)).
  { change (2 ^ 24 * 2 ^ 149) with (fval (f32_of_int (2 ^ 24))). apply f32_of_int_mono; lia. }
  assert (Hi : fval (f32_of_int l) <= 2 ^ 63 * 2 ^ 149).
  { change (2 ^ 63 * 2 ^ 149) with (fval (f32_of_int (2 ^ 63))). apply f32_of_int_mono; unfold two63 in *; lia. }
  destruct (fval_pos_shape _ V) as (m & e & E); [lia|lia|]. rewrite E in *.
  rewrite to_i64_fval by exact V. pose proof (valid_bounds _ _ _ V) as (B & D & N).
  pose proof (digs_bounds m) as [_ U]. assert (Um : Z.pos m < 2 ^ 24) by (eapply Z.lt_le_trans; [exact U|apply Z.pow_le_mono_r; lia]).
  cbn [fval] in *. rewrite Z.mul_1_l in *.
  assert (He : 0 <= e).
  { destruct (Z_le_gt_dec 0 e) as [|G']; [assumption|exfalso].
    assert (2 ^ (e + 149) <= 2 ^ 149) by (apply Z.pow_le_mono_r; lia). assert (0 < 2 ^ (e + 149)) by (apply Z.pow_pos_nonneg; lia). nia. }
  rewrite pow_split in Lo, Hi, E1, E2 |- * by lia. rewrite Z.mul_assoc in Lo, Hi, E1, E2 |- *. rewrite Z.div_mul by lia.
  set (r := Z.pos m * 2 ^ e) in *. clearbody r. unfold two63 in *.
  assert (E1' : 2 ^ 24 * (r - l) <= l) by lia. assert (E2' : 2 ^ 24 * (l - r) <= l) by lia. clear E1 E2 R V N U Lo Hi E. lia.
Qed.
Lemma tracker_first_near : forall t g, 0 <= g < two63 -> 0 <= t -> if tracker_first t g then hardly_above t g else hardly_above g t.
Proof.
  intros t g Hg Ht. pose proof (rounded_loop g Hg) as [A B]. unfold tracker_first, hardly_above. set (r := f32_to_i64 _) in *. clearbody r. destruct (Z.ltb_spec t r); lia.
Qed.
Lemma hardly_above_le : forall a b c, hardly_above a b -> b <= c -> hardly_above a c.
Proof. unfold hardly_above. intros. nia. Qed.
Lemma le_hardly_above : forall a b, 0 <= b -> a <= b -> hardly_above a b.
Proof. unfold hardly_above. intros. nia. Qed.

Section Near.
  Variables (mc : machine) (p : proto).
  #[local] Notation build := (mc_build mc).
  Lemma schedule_nearly : forall ts ga, in_order (map fst ts) -> in_order (map fst ga) -> Forall (fun t : Z * tracker_event => 0 <= fst t) ts -> Forall (fun g : Z * game_item => 0 <= fst g < two63) ga ->
    nearly_in_order (map event_loop (present (schedule (map Some ts) ga))).
  Proof.
    unfold in_order, nearly_in_order. induction ts as [|t ts IHt]; induction ga as [|g ga IHg]; intros St Sg Ht Hx.
    - constructor.
    - cbn. inversion Sg as [|? ? Sg' Fg]; inversion Hx as [|? ? Hx1 Hx2]; subst. constructor; [apply IHg; assumption|].
      apply Forall_map. apply (schedule_Forall (fun l => hardly_above (fst g) l) []); [constructor|]. rewrite Forall_map in Fg. eapply Forall_impl; [|exact Fg]. intros a La. cbn in La. apply le_hardly_above; lia.
    - cbn. inversion St as [|? ? St' Ft]; inversion Ht as [|? ? Ht1 Ht2]; subst. constructor; [apply (IHt []); auto|]. apply Forall_map. apply (schedule_Forall (fun l => hardly_above (fst t) l)); [|constructor].
      rewrite present_map. rewrite Forall_map in Ft. eapply Forall_impl; [|exact Ft]. intros a La. cbn in La. apply le_hardly_above; lia.
    - cbn [map schedule]. inversion St as [|? ? St' Ft]; inversion Sg as [|? ? Sg' Fg]; inversion Ht as [|? ? Ht1 Ht2]; inversion Hx as [|? ? Hx1 Hx2]; subst. rewrite Forall_map in Ft, Fg.
      pose proof (tracker_first_near (fst t) (fst g) Hx1 Ht1) as K. destruct (tracker_first (fst t) (fst g)).
      + change (present (Some (tracker_item t) :: schedule (map Some ts) (g :: ga))) with (tracker_item t :: present (schedule (map Some ts) (g :: ga))). cbn [map]. constructor; [apply IHt; assumption|].
        apply Forall_map. apply (schedule_Forall (fun l => hardly_above (fst t) l)).
        { rewrite present_map. eapply Forall_impl; [|exact Ft]. intros a La. cbn in La. apply le_hardly_above; lia. }
        constructor; [exact K|]. eapply Forall_impl; [|exact Fg]. intros a La. cbn in La. now apply hardly_above_le with (1 := K).
      + change (present (Some (game_item_event g) :: schedule (map Some (t :: ts)) ga)) with (game_item_event g :: present (schedule (map Some (t :: ts)) ga)). cbn [map]. constructor; [apply IHg; assumption|].
        apply Forall_map. change (Forall (fun e => hardly_above (fst g) (event_loop e)) (present (schedule (map Some (t :: ts)) ga))). apply (schedule_Forall (fun l => hardly_above (fst g) l)).
        { rewrite (present_map _ (t :: ts)). constructor; [exact K|]. eapply Forall_impl; [|exact Ft]. intros a La. cbn in La. now apply hardly_above_le with (1 := K). }
        eapply Forall_impl; [|exact Fg]. intros a La. cbn in La. apply le_hardly_above; lia.
  Qed.
  Lemma calls_nearly : forall names n it rs it' evs, good it -> wf (mg_state it) -> scheduled mc p names it (map Some evs) -> nearly_in_order (map event_loop evs) ->
    merge_calls mc p n it = Ok (rs, it') -> nearly_in_order (map (fun i => event_loop (it_event i)) (present rs)) /\
      forall b, Forall (fun e => hardly_above b (event_loop e)) evs -> Forall (fun i => hardly_above b (event_loop (it_event i))) (present rs).
  Proof.
    intros names. unfold nearly_in_order. induction n as [|n IH]; intros it rs it' evs Hg Hw Hs Ho E; cbn [merge_calls] in E; [injection E as <- <-; split; [constructor|intros; constructor]|].
    apply obind_ok in E as ([r it1] & E1 & E). apply obind_ok in E as ([rs1 it2] & E2 & E). injection E as <- <-.
    destruct (next_suffix mc p names _ _ _ Hg E1 Hw evs Hs) as (W1 & evs1 & evs2 & -> & Hs1 & Hr).
    assert (Ho2 : Sorted.StronglySorted hardly_above (map event_loop evs2)). { clear -Ho. rewrite map_app in Ho. induction (map event_loop evs1) as [|x l IHl]; [exact Ho|]. inversion Ho; subst. auto. }
    destruct (IH it1 rs1 it2 evs2 (next_good mc p _ _ _ Hg E1) W1 Hs1 Ho2 E2) as [A B]. destruct r as [i|].
    - destruct Hr as (l0 & e & -> & Hl). change (present (Some i :: rs1)) with (i :: present rs1). cbn [map]. split.
      + constructor; [exact A|]. apply Forall_map. apply B. rewrite Hl. clear -Ho. induction l0 as [|x l0 IHl].
        * cbn in Ho. inversion Ho; subst. apply (proj1 (Forall_map _ _ _)) in H2. exact H2.
        * apply IHl. cbn in Ho. inversion Ho; subst. assumption.
      + intros b Hb. apply Forall_app in Hb as [Hb1 Hb2]. apply Forall_app in Hb1 as [_ Hb1]. inversion Hb1 as [|? ? Hb3 _]; subst. constructor; [rewrite Hl; exact Hb3|]. apply B, Hb2.
    - change (present (None :: rs1)) with (present rs1). split; [exact A|]. intros b Hb. apply Forall_app in Hb as [_ Hb]. apply B, Hb.
  Qed.
  Lemma sectors_nearly : forall init d b st tevs t gevs g f, starts init d b st -> sectors_of mc p tevs t gevs g -> Forall (fun ev => fst ev < 2 ^ 63) (at_loops 0 gevs) ->
    forall n answers, answers_of (merge_calls mc p n (merge_start st t g f)) = Ok answers -> nearly_in_order (map (fun i => event_loop (it_event i)) (present answers)).
  Proof.
    intros init d b st tevs t gevs g f Hst Hp Hl n answers E. destruct Hp as (Ht & Hg & St & Wt & Sg). destruct (tracker_delivers build p tevs t Ht St Wt) as (ts & Ft & Dt). destruct (game_delivers build p (player_names st) gevs g Hg Sg) as (gs & Fg & Dg).
    assert (O : nearly_in_order (map event_loop (present (schedule (map Some ts) gs)))).
    { destruct (holds_typed _ _ _ _ _ (sector_holds build p _ _ St) Ht) as [T _].
      destruct (loops_in_order _ tevs 0) as [A A0]. { eapply Forall_impl; [|exact T]. intros ev [D _]. lia. }
      destruct (sector_holds_bits build (game_type p) gevs _ (game_wf p) Sg _ (start_aligned g Hg) eq_refl) as (r & Hh & _).
      destruct (holds_typed_bits build _ (game_wf p) (game_no p) (game_min p) _ _ _ Hh (start_aligned g Hg)) as [T2 _].
      destruct (loops_in_order _ gevs 0) as [B B0]. { eapply Forall_impl; [|exact T2]. intros ev [D _]. lia. }
      apply schedule_nearly.
      - replace (map fst ts) with (map fst (at_loops 0 tevs)); [exact A|]. eapply Forall2_maps; [|exact Ft]. intros x y [H _]. exact H.
      - replace (map fst gs) with (map fst (filter supported_game (at_loops 0 gevs))); [now apply filter_in_order|]. eapply Forall2_maps; [|exact Fg]. intros x y [H _]. symmetry. exact H.
      - clear -Ft A0. induction Ft as [|x y lx ly [R _] _ IH]; [constructor|]. inversion A0; subst. constructor; [lia|auto].
      - assert (Hx : Forall (fun ev => 0 <= fst ev < two63) (filter supported_game (at_loops 0 gevs))).
        { apply Forall_forall. intros ev Hin. apply filter_In in Hin as [Hin _]. rewrite Forall_forall in B0, Hl. unfold two63. split; [apply B0|apply Hl]; exact Hin. }
        clear -Fg Hx. induction Fg as [|x y lx ly [R _] _ IH]; [constructor|]. inversion Hx; subst. constructor; [rewrite R; assumption|auto]. }
    unfold answers_of in E. apply obind_ok in E as ([rs it'] & E & Er). injection Er as <-.
    refine (proj1 (calls_nearly (player_names st) n (merge_start st t g f) rs it' (present (schedule (map Some ts) gs)) _ _ _ O E)); [now apply start_good|apply (starts_wf _ _ _ _ Hst)|].
    rewrite <- schedule_some. apply start_scheduled; assumption.
  Qed.
End Near.
Lemma nearly_pairs : forall l, nearly_in_order l -> forall before a between b after, l = before ++ a :: between ++ b :: after -> hardly_above a b.
Proof.
  intros l H before. revert l H. induction before as [|x before IH]; intros l H a between b after E; subst l; cbn [List.app] in H; inversion H as [|? ? S F]; subst.
  - rewrite Forall_app in F. destruct F as [_ F]. now inversion F.
  - exact (IH _ S a between b after eq_refl).
Qed.
Lemma sectors_nearly_pairs : forall mc p init d b st tevs t gevs g f, starts init d b st -> sectors_of mc p tevs t gevs g -> Forall (fun ev => fst ev < 2 ^ 63) (at_loops 0 gevs) ->
  forall n answers, answers_of (merge_calls mc p n (merge_start st t g f)) = Ok answers ->
  forall before i between j after, present answers = before ++ i :: between ++ j :: after -> event_loop (it_event i) * 2 ^ 23 <= event_loop (it_event j) * (2 ^ 23 + 1).
Proof.
  intros mc p init d b st tevs t gevs g f Hst Hp Hl n answers E before i between j after Ha.
  pose proof (sectors_nearly mc p init d b st tevs t gevs g f Hst Hp Hl n answers E) as H. rewrite Ha, map_app in H. cbn [map] in H. rewrite map_app in H. cbn [map] in H.
  exact (nearly_pairs _ H _ _ _ _ _ eq_refl).
Qed.
Lemma far_choice : forall t g, 0 <= g < 2 ^ 63 -> (t * 2 ^ 24 < g * (2 ^ 24 - 1) -> tracker_first t g = true) /\ (g * (2 ^ 24 + 1) <= t * 2 ^ 24 -> tracker_first t g = false).
Proof.
  intros t g Hg. destruct (rounded_loop g Hg) as [A B]. unfold tracker_first. set (r := f32_to_i64 _) in *. clearbody r. split; intros H; [apply Z.ltb_lt|apply Z.ltb_ge]; lia.
Qed.
