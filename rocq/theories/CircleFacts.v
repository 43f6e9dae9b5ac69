(** * Facts about the circles of the viewer: every number is one an [f32] can have *)
From Coq Require Import SpecFloat Lia.
From Verif Require Import Base F32 F32Facts F32Round CoordFacts BalanceJsonNear Types Tags Events Maps Lobby Balance Convert ConvertSpec Iterators IteratorFacts State StateSpec StateFacts StateSteps StateProofs StateEvents StateMore LookSpec LookFacts
  Merge MergeSpec MergeFacts MergeProofs Viewer ViewerSpec ViewerFacts CameraBox CameraBoxSpec CameraBoxFacts.
#[local] Open Scope string_scope.
#[local] Open Scope Z_scope.
#[local] Open Scope list_scope.

Lemma opp_valid : forall x, f32_valid (SFopp x) = f32_valid x.
Proof. intros [s|s| |s m e]; reflexivity. Qed.
Lemma sign_valid : forall s t m e, f32_valid (S754_finite s m e) = f32_valid (S754_finite t m e).
Proof. reflexivity. Qed.
Lemma mul_valid : forall x y, f32_valid x = true -> f32_valid y = true -> f32_valid (f32_mul x y) = true.
Proof.
  intros [s|s| |s m e] [t|t| |t n d] X Y; try reflexivity. rewrite (sign_valid s false) in X. rewrite (sign_valid t false) in Y.
  destruct (f32_mul_round m e n d X Y) as [_ V]. unfold f32_mul in *. cbn [SFmul] in *. destruct (xorb s t); [|exact V].
  change true with (negb false). rewrite (round_aux_opp false), opp_valid. exact V.
Qed.
Lemma int_shape : forall p, (exists m e, f32_of_int (Z.pos p) = S754_finite false m e /\ 0 < digs m + e) \/ f32_of_int (Z.pos p) = S754_infinity false.
Proof.
  intros p. destruct (f32_of_int_round (Z.pos p) ltac:(lia)) as [R V].
  assert (F : 2 ^ 149 <= fval (f32_of_int (Z.pos p))).
  { change (2 ^ 149) with (fval (f32_of_int 1)). destruct (f32_of_int_round 1 ltac:(lia)) as [R1 _]. eapply is_round_mono; [| | |exact R1|exact R|]; lia. }
  destruct (f32_of_int (Z.pos p)) as [s|s| |s m e]; [exfalso; vm_compute in F; apply F; reflexivity| |exfalso; vm_compute in F; apply F; reflexivity|].
  - right. destruct s; [exfalso; vm_compute in F; apply F; reflexivity|reflexivity].
  - pose proof (valid_bounds _ _ _ V) as (B & D & _). assert (P0 : 0 < 2 ^ (e + 149)) by (apply Z.pow_pos_nonneg; lia).
    destruct s; [exfalso; cbn [fval] in F; nia|]. left. exists m, e. split; [reflexivity|]. cbn [fval] in F. rewrite Z.mul_1_l in F.
    destruct (Z_lt_le_dec 0 (digs m + e)) as [|L]; [assumption|exfalso]. pose proof (digs_bounds m) as [_ U].
    assert (Q : 2 ^ (digs m + (e + 149)) <= 2 ^ 149) by (apply Z.pow_le_mono_r; lia). rewrite Z.pow_add_r in Q by lia. nia.
Qed.
Lemma four_shape : exists m e, f32_of_int 4 = S754_finite false m e /\ f32_valid (S754_finite false m e) = true /\ digs m + e = 3.
Proof. do 2 eexists. split; [vm_compute; reflexivity|]. split; vm_compute; reflexivity. Qed.
Lemma quarter_valid : forall z, f32_valid (f32_div (f32_of_int z) (f32_of_int 4)) = true.
Proof.
  destruct four_shape as (m & e & E4 & V4 & S4).
  assert (P : forall p, f32_valid (f32_div (f32_of_int (Z.pos p)) (f32_of_int 4)) = true).
  { intros p. pose proof (of_int_valid (Z.pos p)) as V. rewrite E4. destruct (int_shape p) as [(m1 & e1 & E & L)|E]; rewrite E in *; [|reflexivity].
    apply f32_div_round; [lia|exact V|exact V4]. }
  intros [|p|p]; [rewrite E4; reflexivity|apply P|]. rewrite of_int_opp. specialize (P p). destruct (int_shape p) as [(m1 & e1 & E & L)|E].
  - rewrite div_opp, opp_valid by (rewrite ?E, ?E4; eauto). exact P.
  - rewrite E, E4. reflexivity.
Qed.

(** ** The units of every state *)
Definition float_unit (u : sc2_unit) : Prop := f32_valid (fst (fst (su_pos u))) = true /\ f32_valid (snd (fst (su_pos u))) = true /\ f32_valid (su_radius u) = true.
Lemma radius_float : forall b n, float_radii b -> f32_valid (unit_radius b n) = true.
Proof. intros b n H. destruct (unit_radius_spec b n) as [(u & E & Q)|[_ ->]]; [exact (H _ _ _ E Q)|reflexivity]. Qed.
Lemma props_float : forall b u, float_radii b -> float_unit u -> float_unit (set_unit_props b u).
Proof. intros b u H (X & Y & _). refine (conj X (conj Y _)). unfold set_unit_props, get_unit_sized_color, set_size. cbn. now apply radius_float. Qed.
Lemma select_float : forall gl (sel : bool) k u, f32_valid k = true -> float_unit u -> float_unit (select_one gl sel k u).
Proof.
  intros gl sel k u Hk (X & Y & R). unfold select_one. destruct (Bool.eqb (su_selected u) sel); [exact (conj X (conj Y R))|]. refine (conj X (conj Y _)). cbn. now apply mul_valid.
Qed.
Lemma step_float : forall mc st e st' it, float_radii (st_balance st) -> handle_transition mc st e = Ok (st', it) -> all_units float_unit st -> all_units float_unit st'.
Proof.
  intros mc st [gl e|gl uid n e] st' it Hb Hh Ha.
  - apply transition_tracker in Hh as (e' & h & Hh & _). destruct e; cbn [handle_tracker_event] in *; try (injection Hh as <- <- <-; exact Ha).
    + apply fst_of in Hh. subst st'. intros i u. rewrite born_unit. unfold creator_touched. destruct (ub_index e =? i).
      * intros Q. injection Q as <-. destruct (unit_of st i) as [v|] eqn:Ev; destruct (match ub_creator_index e with Some c => c =? i | None => false end); cbn [option_map]; try exact (Ha _ _ Ev);
        (apply props_float; [exact Hb|]; refine (conj _ (conj _ eq_refl)); apply of_int_valid).
      * destruct (unit_of st i) as [v|] eqn:Ev; destruct (match ub_creator_index e with Some c => c =? i | None => false end); cbn [option_map]; intros Q; try discriminate; injection Q as <-; exact (Ha _ _ Ev).
    + intros i u. rewrite (died_unit st gl e st' _ i Hh). destruct (ud_index e =? i); [discriminate|apply Ha].
    + apply fst_of in Hh. subst st'. intros i u. rewrite type_unit. destruct (Z.eqb_spec (ut_index e) i) as [<-|]; [|apply Ha]. intros Q. injection Q as <-. apply props_float; [exact Hb|].
      destruct (unit_of st (ut_index e)) as [v|] eqn:Ev; [exact (Ha _ _ Ev)|repeat (split; [reflexivity|]); reflexivity].
    + apply fst_of in Hh. subst st'. intros i u. rewrite init_unit. destruct (Z.eqb_spec (ui_index e) i) as [<-|]; [|apply Ha]. intros Q. injection Q as <-.
      destruct (unit_of st (ui_index e)) as [v|] eqn:Ev.
      * destruct (Ha _ _ Ev) as (_ & _ & R). refine (conj _ (conj _ R)); apply of_int_valid.
      * apply props_float; [exact Hb|]. refine (conj _ (conj _ eq_refl)); apply of_int_valid.
    + apply fst_of in Hh. subst st'. intros i u. rewrite done_unit. destruct (Z.eqb_spec (un_index e) i) as [<-|]; [|apply Ha].
      destruct (unit_of st (un_index e)) as [v|] eqn:Ev; cbn [option_map]; [|discriminate]. intros Q. injection Q as <-. apply props_float; [exact Hb|]. exact (Ha _ _ Ev).
    + assert (Ht : handle_transition mc st (ETracker gl (TUnitPosition e)) = Ok (st', mk_item (ETracker gl e') h)) by (cbn [handle_transition handle_tracker_event]; rewrite Hh; reflexivity).
      apply position_effect in Ht as (l & _ & _ & _ & _ & Hi). intros i u. rewrite Hi. destruct (unit_of st i) as [v|] eqn:Ev; cbn [option_map]; [|discriminate]. intros Q. injection Q as <-.
      destruct (last_position l i) as [p|]; [|exact (Ha _ _ Ev)]. destruct (Ha _ _ Ev) as (_ & _ & R). refine (conj _ (conj _ R)); apply quarter_valid.
    + apply fst_of in Hh. cbn in Hh. subst st'. intros i u. replace (unit_of (handle_player_setup st e) i) with (unit_of st i); [apply Ha|].
      unfold handle_player_setup. destruct (se_user_id e) as [x|]; [destruct (mget x (st_users st))|]; reflexivity.
  - eapply game_all; [| | | |exact Hh|exact Ha]; try (intros; assumption); intros; apply select_float; auto.
Qed.
Lemma units_float : forall mc st evs st' its, float_radii (st_balance st) -> all_units float_unit st -> run mc st evs = Ok (st', its) -> all_units float_unit st'.
Proof.
  intros mc st evs st' its Hb Ha Hr. assert (X : st_balance st' = st_balance st /\ all_units float_unit st'); [|apply X].
  revert st' its Hr. induction evs as [|e evs IH] using rev_ind; intros st' its Hr; [cbn in Hr; injection Hr as <- <-; auto|].
  apply run_snoc in Hr as (st1 & its1 & it & H1 & H2 & _). destruct (IH _ _ H1) as [E A]. split; [rewrite (step_balance _ _ _ _ _ H2); exact E|].
  apply (step_float _ _ _ _ _ ltac:(rewrite E; exact Hb) H2 A).
Qed.
Lemma start_balance : forall init d b st, starts init d b st -> st_balance st = b.
Proof.
  intros init d b st (st1 & H & _ & -> & _). unfold initial_state in H.
  repeat (apply obind_ok in H as (? & _ & H)). injection H as <-. reflexivity.
Qed.
Lemma viewer_circles : forall mc p init d b st t g f players size a ts frames z' k fr, starts init d b st -> bytes_ok t -> bytes_ok g -> float_radii b ->
  new_app mc p (merge_start st t g f) players size = Ok a -> view mc p ts a = Ok (frames, z') -> nth_error frames k = Some fr ->
  Forall drawn_exactly (fr_circles fr).
Proof.
  intros mc p init d b st t g f players size a ts frames z' k fr Hs Ht Hg Hb En Ev Hk.
  destruct (viewer_map mc p _ _ _ _ _ _ _ _ _ _ _ _ _ _ _ Hs Ht Hg En Ev Hk) as (evs & its & st' & Hr & _ & (ids & _ & _ & F) & _).
  assert (A : all_units float_unit st').
  { assert (B : st_balance st = b) by exact (start_balance _ _ _ _ Hs). eapply units_float; [rewrite B; exact Hb| |exact Hr]. apply starts_wf in Hs as (_ & Hu & _). intros j v. unfold unit_of. rewrite Hu. discriminate. }
  apply Forall_forall. intros c Hc. apply In_nth_error in Hc as (n & Hn). assert (X : exists i u, unit_of st' i = Some u /\ circle_shows u c).
  { clear - F Hn. revert n Hn. induction F as [|i c' ids cs (u & E & S) F IH]; intros [|n] Hn; cbn in Hn; try discriminate; [injection Hn as <-; eauto|eauto]. }
  destruct X as (i & u & E & (z & P) & R & _). destruct (A _ _ E) as (X & Y & V). rewrite P in X, Y. cbn in X, Y. rewrite <- R in V.
  unfold drawn_exactly, circle_drawn. refine (conj _ (conj _ _)); apply widened; assumption.
Qed.
