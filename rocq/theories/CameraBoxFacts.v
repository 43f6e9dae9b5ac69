(** * Facts about the camera boxes *)
From Coq Require Import SpecFloat Lia.
From Verif Require Import Base Types F32 F32Facts F32Round F64 F64Round BitPacked BitSpec BitProofs BitInterp Typed BitTypes Dispatch Tags Events Maps Lobby Balance Convert ConvertSpec ConvertFacts Stream StreamFacts Iterators IteratorFacts IteratorStreams State StateSpec StateFacts StateSteps StateProofs StateMore
  Merge MergeSpec MergeFacts MergeProofs Viewer ViewerSpec ViewerFacts EventPaneFacts CameraBox CameraBoxSpec.
#[local] Open Scope string_scope.
#[local] Open Scope Z_scope.
#[local] Open Scope list_scope.

(** ** Quotients of small integers *)
Lemma int_quotient : forall l d, 0 < l < 2 ^ 43 -> 0 < d < 2 ^ 43 ->
  2 ^ 53 * (d * fval64 (f64_div (f64_of_int l) (f64_of_int d)) - l * 2 ^ 1074) <= l * 2 ^ 1074 /\
  2 ^ 53 * (l * 2 ^ 1074 - d * fval64 (f64_div (f64_of_int l) (f64_of_int d))) <= l * 2 ^ 1074 /\
  f64_valid (f64_div (f64_of_int l) (f64_of_int d)) = true.
Proof.
  intros l d Hl Hd. destruct (f64_of_int_exact l) as (m & e & E & V & F & D); [lia|].
  destruct (f64_of_int_exact d) as (m2 & e2 & E2 & V2 & F2 & D2); [lia|].
  rewrite E, E2 in *.
  destruct (f64_div_round m e m2 e2) as [R RV]; [|exact V|exact V2|].
  { rewrite D, D2. pose proof (Z.log2_nonneg l). assert (Z.log2 d < 43) by (apply Z.log2_lt_pow2; lia). lia. }
  rewrite F, F2 in R. set (r := f64_div _ _) in *. clearbody r. clear - Hl Hd R RV.
  assert (P : 0 < 2 ^ 1074) by (apply Z.pow_pos_nonneg; lia).
  apply is_round_error64 in R; [| apply Z.mul_pos_pos; lia | |].
  - destruct R as [R1 R2]. set (p := 2 ^ 1074) in *. clearbody p. set (t := 2 ^ 53) in *. assert (0 < t) by reflexivity. clearbody t.
    split; [|split; [|exact RV]]; apply (Z.mul_le_mono_pos_r _ _ p); try exact P.
    + replace (t * (d * fval64 r - l * p) * p) with (t * (d * p * fval64 r - l * p * p)) by ring. exact R1.
    + replace (t * (l * p - d * fval64 r) * p) with (t * (l * p * p - d * p * fval64 r)) by ring. exact R2.
  - replace (l * 2 ^ 1074 * 2 ^ 1074) with (2 ^ 1074 * (l * 2 ^ 1074)) by ring. replace (d * 2 ^ 1074 * 2 ^ 52) with (2 ^ 1074 * (d * 2 ^ 52)) by ring.
    apply Z.mul_le_mono_nonneg_l; [lia|]. apply Z.le_trans with (1 * 2 ^ 1074); [|apply Z.mul_le_mono_nonneg_r; lia].
    rewrite Z.mul_1_l. apply Z.le_trans with (2 ^ 43 * 2 ^ 52); [apply Z.mul_le_mono_nonneg_r; lia|]. rewrite <- pow_split by lia. apply Z.pow_le_mono_r; lia.
  - replace (l * 2 ^ 1074 * 2 ^ 1074) with (2 ^ 1074 * (l * 2 ^ 1074)) by ring. replace (d * 2 ^ 1074 * 2 ^ 2097) with (2 ^ 1074 * (d * 2 ^ 2097)) by ring.
    apply Z.mul_lt_mono_pos_l; [lia|]. apply Z.lt_le_trans with (2 ^ 43 * 2 ^ 1074); [apply Z.mul_lt_mono_pos_r; lia|].
    apply Z.le_trans with (1 * 2 ^ 2097); [|apply Z.mul_le_mono_nonneg_r; [apply Z.pow_nonneg|]; lia].
    rewrite Z.mul_1_l, <- pow_split by lia. apply Z.pow_le_mono_r; lia.
Qed.

(** ** Differences *)
Lemma aux_sign : forall m e l, fval64 (binary_round_aux f64_prec f64_emax true m e l) = - fval64 (binary_round_aux f64_prec f64_emax false m e l).
Proof.
  intros m e l. unfold binary_round_aux. destruct (shr_fexp _ _ m e l) as [a b]. destruct (shr_fexp _ _ _ b loc_Exact) as [c d].
  destruct (shr_m c) as [|q|q]; [reflexivity| |reflexivity]. destruct (d <=? f64_emax - f64_prec); cbn [fval64]; ring.
Qed.
Lemma round_sign : forall p e, fval64 (binary_round f64_prec f64_emax true p e) = - fval64 (binary_round f64_prec f64_emax false p e).
Proof. intros p e. unfold binary_round. destruct (shl_align _ _ _). apply aux_sign. Qed.
Lemma align_value : forall m e z, z <= e -> Z.pos (fst (shl_align m e z)) = Z.pos m * 2 ^ (e - z).
Proof.
  intros m e z H. unfold shl_align. destruct (z - e) as [|d|d] eqn:E; cbn [fst]; try lia.
  - replace (e - z) with 0 by lia. rewrite Z.mul_1_r. reflexivity.
  - rewrite shift_pos_correct. replace (e - z) with (Z.pos d) by lia. rewrite Z.pow_pos_fold. lia.
Qed.
Lemma round_near : forall p e, -1022 <= e -> Z.pos p * 2 ^ (e + 1074) < 2 ^ 2097 ->
  2 ^ 53 * Z.abs (fval64 (binary_round f64_prec f64_emax false p e) - Z.pos p * 2 ^ (e + 1074)) <= Z.pos p * 2 ^ (e + 1074).
Proof.
  intros p e He Hb. destruct (binary_round_is_round64 p e (Z.pos p * 2 ^ (e + 1074)) 1) as [R _]; [lia| |].
  - intros k Hk Hx. rewrite Z.mul_1_r. rewrite <- !Z.mul_assoc. f_equal. rewrite <- !Z.pow_add_r by lia. f_equal. lia.
  - assert (P : 2 ^ 52 <= 2 ^ (e + 1074)) by (apply Z.pow_le_mono_r; lia).
    apply is_round_error64 in R; [|lia| |lia].
    + set (A := Z.pos p * 2 ^ (e + 1074)) in *. rewrite !Z.mul_1_l in R. destruct (Z.abs_spec (fval64 (binary_round f64_prec f64_emax false p e) - A)) as [[_ ->]|[_ ->]]; lia.
    + rewrite Z.mul_1_l. nia.
Qed.
Lemma difference : forall m1 e1 m2 e2, -1022 <= e1 -> -1022 <= e2 ->
  let x := S754_finite false m1 e1 in let y := S754_finite false m2 e2 in
  Z.abs (fval64 x - fval64 y) < 2 ^ 2097 ->
  2 ^ 53 * Z.abs (fval64 (f64_sub x y) - (fval64 x - fval64 y)) <= Z.abs (fval64 x - fval64 y).
Proof.
  intros m1 e1 m2 e2 H1 H2 x y Hb. unfold f64_sub, x, y, SFsub. cbn [cond_Zopp]. set (ez := Z.min e1 e2). rewrite !align_value by lia.
  assert (Ex : forall m e, ez <= e -> fval64 (S754_finite false m e) = Z.pos m * 2 ^ (e - ez) * 2 ^ (ez + 1074)).
  { intros m e L. cbn [fval64]. rewrite Z.mul_1_l, <- Z.mul_assoc, <- Z.pow_add_r by lia. f_equal. f_equal. lia. }
  unfold x, y in Hb. rewrite !Ex in * by lia. rewrite <- Z.mul_sub_distr_r in *. set (D := Z.pos m1 * 2 ^ (e1 - ez) - Z.pos m2 * 2 ^ (e2 - ez)) in *. clearbody D.
  assert (Le : -1022 <= ez) by lia. clearbody ez. unfold binary_normalize. destruct D as [|p|p].
  - reflexivity.
  - rewrite (Z.abs_eq (Z.pos p * _)) in * by (apply Z.mul_nonneg_nonneg; [lia|apply Z.pow_nonneg; lia]). apply round_near; assumption.
  - change (Z.neg p) with (- Z.pos p) in *. rewrite Z.mul_opp_l in *. rewrite Z.abs_opp in *.
    rewrite (Z.abs_eq (Z.pos p * _)) in * by (apply Z.mul_nonneg_nonneg; [lia|apply Z.pow_nonneg; lia]). rewrite round_sign.
    replace (- _ - - _) with (- (fval64 (binary_round f64_prec f64_emax false p ez) - Z.pos p * 2 ^ (ez + 1074))) by ring. rewrite Z.abs_opp. apply round_near; assumption.
Qed.

(** ** The edges of a box *)
Lemma valid_big : forall x, f64_valid x = true -> 2 ^ 1060 <= fval64 x < 2 ^ 2098 -> exists m e, x = S754_finite false m e /\ -1022 <= e.
Proof.
  intros [s|s| |s m e] V [L U]; cbn [fval64] in L, U.
  - exfalso. assert (0 < 2 ^ 1060) by (apply Z.pow_pos_nonneg; lia). lia.
  - exfalso. destruct s; [assert (0 < 2 ^ 1060) by (apply Z.pow_pos_nonneg; lia); assert (0 < 2 ^ 2098) by (apply Z.pow_pos_nonneg; lia)|]; lia.
  - exfalso. assert (0 < 2 ^ 1060) by (apply Z.pow_pos_nonneg; lia). lia.
  - destruct s.
    { exfalso. assert (0 <= Z.pos m * 2 ^ (e + 1074)) by (apply Z.mul_nonneg_nonneg; [lia|apply Z.pow_nonneg; lia]). assert (0 < 2 ^ 1060) by (apply Z.pow_pos_nonneg; lia). lia. }
    exists m, e. split; [reflexivity|]. rewrite Z.mul_1_l in L. apply valid64_bounds in V as (B & D & _).
    destruct (Z_le_gt_dec (-1022) e) as [|G]; [assumption|exfalso].
    pose proof (digs_bounds m) as [_ M]. assert (M' : Z.pos m < 2 ^ 53) by (apply Z.lt_le_trans with (1 := M); apply Z.pow_le_mono_r; lia).
    assert (Q : 2 ^ (e + 1074) <= 2 ^ 51) by (apply Z.pow_le_mono_r; lia). assert (0 < 2 ^ (e + 1074)) by (apply Z.pow_pos_nonneg; lia).
    assert (2 ^ 53 * 2 ^ 51 < 2 ^ 1060) by (rewrite <- Z.pow_add_r by lia; apply Z.pow_lt_mono_r; lia). nia.
Qed.
Lemma edge_close : forall z, 0 <= z < 2 ^ 16 -> close_to (camera_edge z) (z - 10 * 250) 250.
Proof.
  intros z Hz. unfold close_to. destruct (Z.eq_dec z 0) as [->|N]; [vm_compute; discriminate|].
  unfold camera_edge, mini_to_map. destruct (int_quotient z 250) as (Q1 & Q2 & V); [lia|lia|].
  set (q := f64_div (f64_of_int z) (f64_of_int 250)) in *. clearbody q.
  assert (F10 : fval64 (f64_of_int 10) = 10 * 2 ^ 1074) by (vm_compute; reflexivity).
  assert (S10 : f64_of_int 10 = S754_finite false 5629499534213120 (-49)) by (vm_compute; reflexivity).
  assert (P : 0 < 2 ^ 1060) by (apply Z.pow_pos_nonneg; lia).
  assert (P14 : 2 ^ 1074 = 2 ^ 14 * 2 ^ 1060) by (rewrite <- Z.pow_add_r by lia; reflexivity).
  assert (P2 : 2 ^ 1060 * 2 ^ 30 <= 2 ^ 2097) by (rewrite <- Z.pow_add_r by lia; apply Z.pow_le_mono_r; lia).
  assert (P3 : 2 ^ 2098 = 2 * 2 ^ 2097) by (change 2098 with (1 + 2097); rewrite Z.pow_add_r by lia; reflexivity).
  pose proof (valid_big q V) as VB.
  assert (D : forall m e, -1022 <= e -> let x := S754_finite false m e in Z.abs (fval64 x - fval64 (f64_of_int 10)) < 2 ^ 2097 ->
    2 ^ 53 * Z.abs (fval64 (f64_sub x (f64_of_int 10)) - (fval64 x - fval64 (f64_of_int 10))) <= Z.abs (fval64 x - fval64 (f64_of_int 10))).
  { intros m e He. rewrite S10. exact (difference m e 5629499534213120 (-49) He ltac:(lia)). }
  cbv zeta in D. rewrite P3 in VB. rewrite P14 in *. set (u := 2 ^ 1060) in *. clearbody u. set (b := 2 ^ 2097) in *. clearbody b.
  destruct VB as (m & e & E & He); [lia|].
  specialize (D m e He). rewrite <- E, F10 in D.
  set (r := fval64 (f64_sub q (f64_of_int 10))) in *. clearbody r. set (x := fval64 q) in *. clearbody x. lia.
Qed.
Lemma box_surrounds : forall c, sixteen_bits (bx_center c) -> surrounds (rectangle_of c) (bx_center c).
Proof. intros c [Hx Hy]. refine (conj (edge_close _ Hx) (conj (edge_close _ Hy) (conj _ _))); vm_compute; reflexivity. Qed.
Lemma edges_ordered : forall a b, 0 <= a < 2 ^ 16 -> 0 <= b < 2 ^ 16 -> a < b -> fval64 (camera_edge a) < fval64 (camera_edge b).
Proof.
  intros a b Ha Hb L. pose proof (edge_close a Ha) as A. pose proof (edge_close b Hb) as B. unfold close_to in *.
  assert (P : 0 < 2 ^ 1074) by (apply Z.pow_pos_nonneg; lia). set (u := 2 ^ 1074) in *. clearbody u.
  set (x := fval64 (camera_edge a)) in *. clearbody x. set (y := fval64 (camera_edge b)) in *. clearbody y.
  assert (a * u + u <= b * u) by nia. lia.
Qed.

(** ** Camera positions that were read have 16 bits *)
Definition aimed (e : game_event) : Prop :=
  match e with
  | GCameraSave x => sixteen_bits (cs_target x)
  | GCameraUpdate x => match cu_target x with Some q => sixteen_bits q | None => True end
  | _ => True
  end.
Lemma point_small : forall v q, btyped bp_GameSPointMini v = true -> point_from v = Ok q -> sixteen_bits q.
Proof. intros v q H E. binv. unfold point_from in E. revert E. run. intros E. injection E as <-. split; assumption. Qed.
Lemma save_aimed : forall v e, btyped bp_GameSCameraSaveEvent v = true -> camera_save_from v = Ok e -> aimed e.
Proof.
  intros v e H E. destruct (bt_struct _ _ H) as (vs & -> & Hv). clear H. repeat fields1. unfold camera_save_from in E. revert E. cbn [get field lookup String.eqb Ascii.eqb Bool.eqb]. intros E.
  apply obind_ok in E as (n & _ & E). apply obind_ok in E as (q & Q & E). injection E as <-. exact (point_small _ _ Hw0 Q).
Qed.
Lemma update_aimed : forall v e, btyped bp_GameSCameraUpdateEvent v = true -> camera_update_from v = Ok e -> aimed e.
Proof.
  intros v e H E. destruct (bt_struct _ _ H) as (vs & -> & Hv). clear H. repeat fields1. unfold camera_update_from in E. revert E. cbn [get field lookup String.eqb Ascii.eqb Bool.eqb]. intros E.
  apply obind_ok in E as (t & T & E). apply obind_ok in E as (d & _ & E). apply obind_ok in E as (pi & _ & E). apply obind_ok in E as (y & _ & E).
  apply obind_ok in E as (rr & _ & E). apply obind_ok in E as (f & _ & E). injection E as <-. cbn [aimed cu_target].
  destruct (bt_opt _ _ Hw) as [->|(pv & -> & B)]; unfold get, field in T; cbn in T; [injection T as <-; exact Logic.I|].
  apply obind_ok in T as (q & Q & T). injection T as <-. exact (point_small _ _ B Q).
Qed.
Lemma camera_types : forall p, Forall (fun x => (snd (fst x) = "ECameraSave" -> snd x = bp_GameSCameraSaveEvent) /\ (snd (fst x) = "ECameraUpdate" -> snd x = bp_GameSCameraUpdateEvent)) (choice_variants (game_type p)).
Proof.
  intros [|]; cbn [game_type choice_variants bp75_GameEEventId bp_GameEEventId];
  repeat (apply Forall_cons; [cbn [fst snd]; split; first [discriminate | reflexivity]|]); apply Forall_nil.
Qed.
Lemma read_aimed : forall p v e, btyped (game_type p) v = true -> game_from v = Ok e -> aimed e.
Proof.
  intros p v e H E. pose proof (game_from_typed p v H) as R. unfold game_result in R. destruct (existsb _ _); [|rewrite E in R; discriminate].
  destruct R as (e' & E' & R). assert (e' = e) by congruence. subst e'. clear E'.
  assert (T : exists n, game_type p = BChoice n (choice_variants (game_type p))) by (destruct p; eexists; reflexivity).
  destruct T as [n T]. rewrite T in H. apply bt_choice in H as (z & s & t & w & -> & Hin & Hw). clear T.
  pose proof (camera_types p) as C. rewrite Forall_forall in C. specialize (C _ Hin). cbn [fst snd] in C. destruct C as [C1 C2].
  destruct e; try exact Logic.I; (destruct R as [R|(l & _ & _ & _ & R)]; [|discriminate]); cbn [game_value] in R; injection R as <- _.
  - rewrite (C1 eq_refl) in Hw. exact (save_aimed _ _ Hw E).
  - rewrite (C2 eq_refl) in Hw. exact (update_aimed _ _ Hw E).
Qed.

Section Aimed.
  Variable mc : machine.
  Variable p : proto.
  Notation build := (mc_build mc).
  Lemma game_next_aimed : forall names n c l x s', (cursor_size c <= n)%nat -> aligned c -> game_next build p names (c, l) = Ok (Some x, s') -> aimed (gi_event (snd x)).
  Proof.
    intros names. pose proof (triplet_good build _ (game_wf p) (game_no p) (game_min p)) as Hg. unfold game_next.
    induction n as [|n IH]; intros c l x s' Hn Ha E; rewrite (next_unfold cursor_end cursor_size _ (game_convert names) aligned Hg (triplet_nu build _)) in E by exact Ha;
    destruct (cursor_end c); try discriminate; destruct (parse_event_triplet build (game_type p) c) as [[c' [d [u v]]]|e|] eqn:Ep; try discriminate;
    destruct (Hg _ _ _ _ Ha Ep) as [Ha' Hs]; [lia|].
    destruct (triplet_step build (game_type p) c c' d u v (game_wf p) (game_no p) (game_min p) Ha Ep) as (_ & _ & _ & _ & _ & B).
    unfold game_convert at 1 in E. cbn [fst snd] in E. destruct (game_from v) as [e|e|] eqn:G; cbn [obind] in E; [injection E as <- _; exact (read_aimed p v e B G)| |discriminate].
    destruct e; try discriminate. eapply IH; [|exact Ha'|exact E]. lia.
  Qed.
  Definition pending_aimed (it : merged) : Prop := match mg_next_game it with Some g => aimed (gi_event (snd g)) | None => True end.
  Lemma advance_aimed : forall it r it', good it -> pending_aimed it -> advance mc p it = Ok (r, it') ->
    pending_aimed it' /\ match r with Some (EGame _ _ _ e) => aimed e | _ => True end.
  Proof.
    intros it r it' [Ht Hg] Hu E. unfold advance in E. apply obind_ok in E as (it1 & E1 & E). apply obind_ok in E as (it2 & E2 & E). injection E as E.
    assert (F1 : pending_aimed it1 /\ aligned (fst (mg_game it1))).
    { unfold fill_tracker in E1. destruct (mg_next_tracker it); [injection E1 as <-; auto|]. apply obind_ok in E1 as ([x s] & _ & E1). injection E1 as <-. split; [exact Hu|exact Hg]. }
    destruct F1 as [U1 G1]. assert (U2 : pending_aimed it2).
    { unfold fill_game in E2. destruct (mg_next_game it1) eqn:En; [injection E2 as <-; exact U1|]. apply obind_ok in E2 as ([x s] & Ex & E2). injection E2 as <-. unfold pending_aimed. cbn.
      destruct x as [x|]; [|exact Logic.I]. destruct (mg_game it1) as [c l]. eapply game_next_aimed; [|exact G1|exact Ex]. apply Nat.le_refl. }
    unfold pick in E. unfold pending_aimed in U2. destruct (mg_next_tracker it2) as [t|] eqn:T; destruct (mg_next_game it2) as [g|] eqn:G; [destruct (tracker_first _ _)| | |];
      injection E as <- <-; unfold pending_aimed, take_tracker, take_game; cbn; rewrite ?G; auto.
  Qed.
  Definition cameras_in (st : state) : Prop := wf st /\ forall u us, user_of st u = Some us -> sixteen_bits (us_camera us).
  Lemma step_aimed : forall st e st' i, cameras_in st -> match e with EGame _ _ _ x => aimed x | ETracker _ _ => True end -> handle_transition mc st e = Ok (st', i) -> cameras_in st'.
  Proof.
    intros st e st' i [W C] A H. split; [exact (step_wf mc _ _ _ _ W H)|]. intros u us Hu. pose proof (camera_step mc st e st' i u W H) as S. rewrite Hu in S. cbn [option_map] in S.
    destruct (user_of st u) as [us0|] eqn:E0; [|discriminate]. destruct (camera_target u e) as [q|] eqn:T; injection S as ->; [|exact (C _ _ E0)].
    destruct e as [l x|l v n x]; [discriminate|]. destruct x; cbn [camera_target aimed] in *; try discriminate; destruct (v =? u); try discriminate.
    - injection T as <-. exact A.
    - rewrite T in A. exact A.
  Qed.
  Definition kept (it : merged) : Prop := pending_aimed it /\ cameras_in (mg_state it).
  Lemma round_kept : forall it e it1 st i, good it -> kept it -> advance mc p it = Ok (Some e, it1) -> handle_transition mc (mg_state it) e = Ok (st, i) -> kept (with_state st it1).
  Proof.
    intros it e it1 st i Hg [U C] Ea Eh. destruct (advance_aimed _ _ _ Hg U Ea) as [U1 A]. split; [exact U1|]. refine (step_aimed _ _ _ _ C _ Eh). destruct e; [exact Logic.I|exact A].
  Qed.
  Lemma next_kept : forall it r it', good it -> merge_next mc p it = Ok (r, it') -> kept it -> kept it'.
  Proof.
    apply (merge_next_ind mc p (fun it r it' => kept it -> kept it')).
    - intros it it1 Hg Ea [U C]. destruct (advance_facts mc p _ _ _ Hg Ea) as (_ & _ & S & _). split; [apply (advance_aimed _ _ _ Hg U Ea)|]. rewrite S. exact C.
    - intros it e it1 st i Hg Ea Eh _ K. exact (round_kept _ _ _ _ _ Hg K Ea Eh).
    - intros it e it1 st i f Hg Ea Eh _ _ K. exact (round_kept _ _ _ _ _ Hg K Ea Eh).
    - intros it e it1 st i f r it2 Hg Ea Eh _ _ IH K. apply IH. exact (round_kept _ _ _ _ _ Hg K Ea Eh).
  Qed.
  Lemma calls_kept : forall n it rs it', good it -> kept it -> merge_calls mc p n it = Ok (rs, it') -> kept it'.
  Proof.
    induction n as [|n IH]; intros it rs it' Hg Hu E; cbn [merge_calls] in E; [injection E as <- <-; exact Hu|].
    apply obind_ok in E as ([r it1] & E1 & E). apply obind_ok in E as ([rs1 it2] & E2 & E). injection E as <- <-. eapply IH; [|apply (next_kept _ _ _ Hg E1 Hu)|exact E2]. eapply next_good; eauto.
  Qed.
End Aimed.
Lemma viewer_boxes : forall mc p init d b st t g f players size a ts frames z' k fr, starts init d b st -> bytes_ok t -> bytes_ok g ->
  new_app mc p (merge_start st t g f) players size = Ok a -> view mc p ts a = Ok (frames, z') -> nth_error frames k = Some fr ->
  Forall (fun c => sixteen_bits (bx_center c) /\ surrounds (rectangle_of c) (bx_center c)) (fr_boxes fr).
Proof.
  intros mc p init d b st t g f players size a ts frames z' k fr Hs Ht Hg En Ev Hk. apply new_opens in En as (z & ans & Ec & Ho & Hl & Pp & Ps & Hx).
  destruct (view_frames mc p _ _ _ _ _ z ans Ev Ec Hl _ _ Hk) as (n & a' & ans' & Pn & Ec' & Lc & Pp' & Ps' & ->).
  assert (K : kept (ap_iter a')).
  { eapply (calls_kept mc p); [|  |exact Ec']; [apply start_good; assumption|]. split; [exact Logic.I|]. split; [exact (proj1 (starts_wf _ _ _ _ Hs))|].
    intros u us Hu. destruct (start_user _ _ _ _ _ _ Hs Hu) as (l & ps & -> & _). split; cbn; lia. }
  destruct K as (_ & W & C). cbn [draw fr_boxes]. apply Forall_map. apply Forall_forall. intros [u us] I.
  assert (S : sixteen_bits (us_camera us)) by (apply (C u); unfold user_of; apply In_mget; [apply W|exact I]).
  split; [exact S|]. apply (box_surrounds (box_of (ap_players a') (u, us))). exact S.
Qed.

(** ** From single to double precision *)
Lemma round_exact : forall p e, digs p <= 24 -> -149 <= e <= 104 ->
  fval64 (binary_round f64_prec f64_emax false p e) = Z.pos p * 2 ^ (e + 1074).
Proof.
  intros p e D He. destruct (binary_round_is_round64 p e (Z.pos p * 2 ^ (e + 1074)) 1) as [R _]; [lia| |].
  - intros k Hk Hx. rewrite Z.mul_1_r. rewrite <- !Z.mul_assoc. f_equal. rewrite <- !Z.pow_add_r by lia. f_equal. lia.
  - pose proof (digs_bounds p) as [_ U]. assert (M : Z.pos p < 2 ^ 24) by (apply Z.lt_le_trans with (1 := U); apply Z.pow_le_mono_r; lia).
    rewrite <- (Z.mul_1_l (fval64 _)). apply (is_round_exact64 _ 1 _ (Z.pos p) (e + 1074)); try lia; [exact R|].
    rewrite Z.mul_1_l. apply Z.lt_le_trans with (2 ^ 24 * 2 ^ (e + 1074)); [apply Z.mul_lt_mono_pos_r; [apply Z.pow_pos_nonneg; lia|exact M]|].
    rewrite <- Z.pow_add_r by lia. apply Z.pow_le_mono_r; lia.
Qed.
Lemma round_finite : forall s p e, digs p <= 24 -> -149 <= e <= 104 -> exists s' m' e', binary_round f64_prec f64_emax s p e = S754_finite s' m' e'.
Proof.
  assert (F : forall p e, digs p <= 24 -> -149 <= e <= 104 -> exists m' e', binary_round f64_prec f64_emax false p e = S754_finite false m' e').
  { intros p e D He. pose proof (round_exact p e D He) as X. assert (P : 0 < Z.pos p * 2 ^ (e + 1074)) by (apply Z.mul_pos_pos; [lia|apply Z.pow_pos_nonneg; lia]).
    pose proof (digs_bounds p) as [_ U]. assert (M : Z.pos p < 2 ^ 24) by (apply Z.lt_le_trans with (1 := U); apply Z.pow_le_mono_r; lia).
    assert (L : Z.pos p * 2 ^ (e + 1074) < 2 ^ 2098).
    { apply Z.lt_le_trans with (2 ^ 24 * 2 ^ (e + 1074)); [apply Z.mul_lt_mono_pos_r; [apply Z.pow_pos_nonneg; lia|exact M]|]. rewrite <- Z.pow_add_r by lia. apply Z.pow_le_mono_r; lia. }
    destruct (binary_round f64_prec f64_emax false p e) as [s|s| |s m' e']; cbn [fval64] in X; [lia| |lia|].
    - exfalso. assert (0 < 2 ^ 2098) by (apply Z.pow_pos_nonneg; lia). destruct s; lia.
    - destruct s; [exfalso|eauto]. assert (0 <= Z.pos m' * 2 ^ (e' + 1074)) by (apply Z.mul_nonneg_nonneg; [lia|destruct (Z_lt_le_dec (e' + 1074) 0); [rewrite Z.pow_neg_r by lia; lia|apply Z.pow_nonneg; lia]]). lia. }
  intros [|] p e D He; [|destruct (F p e D He) as (m' & e' & ->); eauto].
  destruct (F p e D He) as (m' & e' & E). unfold binary_round in *. destruct (shl_align _ _ _) as [mz ez]. unfold binary_round_aux in *.
  destruct (shr_fexp _ _ (Z.pos mz) ez loc_Exact) as [a b]. destruct (shr_fexp _ _ _ b loc_Exact) as [c d]. destruct (shr_m c) as [|q|q]; try discriminate.
  destruct (d <=? f64_emax - f64_prec); [eauto|discriminate].
Qed.
Lemma widened : forall x, f32_valid x = true -> same_number (f64_from x) x.
Proof.
  intros [s|s| |s m e] V; try reflexivity. apply valid_bounds in V as (B & D & _). unfold same_number, f64_from.
  assert (X : binary_normalize f64_prec f64_emax (cond_Zopp s (Z.pos m)) e s = binary_round f64_prec f64_emax s m e) by (destruct s; reflexivity).
  rewrite X. split; [apply round_finite; lia|]. assert (Y : fval64 (binary_round f64_prec f64_emax s m e) = (if s then -1 else 1) * (Z.pos m * 2 ^ (e + 1074))).
  { destruct s; [rewrite round_sign|]; rewrite round_exact by lia; ring. }
  rewrite Y. cbn [fval]. replace (e + 1074) with ((e + 149) + 925) by lia. rewrite Z.pow_add_r by lia. change 1074 with (149 + 925). rewrite (Z.pow_add_r 2 149 925) by lia. ring.
Qed.
Lemma edges_iff : forall a b, 0 <= a < 2 ^ 16 -> 0 <= b < 2 ^ 16 -> a < b <-> fval64 (camera_edge a) < fval64 (camera_edge b).
Proof.
  intros a b Ha Hb. split; [apply edges_ordered; assumption|]. intros L. destruct (Z.lt_trichotomy a b) as [|[->|G]]; [assumption|lia|].
  pose proof (edges_ordered b a Hb Ha G). lia.
Qed.
Lemma boxes_ordered : forall c c', sixteen_bits (bx_center c) -> sixteen_bits (bx_center c') ->
  (pm_x (bx_center c) < pm_x (bx_center c') <-> fval64 (re_x (rectangle_of c)) < fval64 (re_x (rectangle_of c'))) /\
  (pm_y (bx_center c) < pm_y (bx_center c') <-> fval64 (re_y (rectangle_of c)) < fval64 (re_y (rectangle_of c'))).
Proof. intros c c' [Hx Hy] [Hx' Hy']. split; apply edges_iff; assumption. Qed.
