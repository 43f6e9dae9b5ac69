(** * Facts about the viewer *)
From Coq Require Import Ascii.
From Verif Require Import Base F32 Tags Events Maps Balance Lobby Convert Stream StreamFacts Iterators IteratorFacts Dispatch DetailsData State StateFacts StateSpec StateSteps StateProofs StateMore RowLife Merge MergeSpec MergeFacts MergeStreams MergeProofs Archive Cli Viewer ViewerSpec.
#[local] Open Scope string_scope.
#[local] Open Scope Z_scope.
#[local] Open Scope list_scope.

(** ** No unit is registered twice *)
Definition keyed {A} (l : list (Z * A)) : Prop := NoDup (map fst l).
Lemma keyed_mset : forall A (l : list (Z * A)) k a, keyed l -> keyed (mset k a l). Proof. intros. now apply mset_NoDup. Qed.
Lemma mdel_in : forall A (l : list (Z * A)) k j, In j (map fst (mdel k l)) -> In j (map fst l).
Proof. induction l as [|[k0 a0] l IH]; intros k j; cbn; [auto|]. destruct (k0 =? k); cbn; [|intros [->|Hj]]; eauto. Qed.
Lemma keyed_mdel : forall A (l : list (Z * A)) k, keyed l -> keyed (mdel k l).
Proof.
  unfold keyed. induction l as [|[k0 a0] l IH]; intros k Hd; cbn [mdel]; [constructor|]. cbn [map fst] in Hd. inversion Hd; subst.
  destruct (k0 =? k); [auto|]. cbn [map fst]. constructor; [|auto]. intros Hi. apply mdel_in in Hi. auto.
Qed.
#[local] Hint Resolve keyed_mset keyed_mdel : core.
Lemma keyed_cmd : forall b gl o tags cmd units, keyed units -> keyed (fst (cmd_loop b gl o tags cmd units)).
Proof.
  induction tags as [|t tags IH]; intros cmd units Hk; cbn [cmd_loop]; [exact Hk|]. destruct (mget (unit_tag_index t) units); [|now apply IH].
  destruct (cm_abil cmd); [|now apply IH]. cbv zeta. match goal with |- context [cmd_loop b gl o tags ?c ?u] => pose proof (IH c u) as Q; destruct (cmd_loop b gl o tags c u) as [u' [c' l']] end.
  cbn [fst] in *. apply Q. auto.
Qed.
Lemma keyed_target : forall f tags units, keyed units -> keyed (fst (target_loop f tags units)).
Proof.
  induction tags as [|t tags IH]; intros units Hk; cbn [target_loop]; [exact Hk|]. destruct (mget (unit_tag_index t) units) as [u|]; [|now apply IH].
  pose proof (IH (mset (unit_tag_index t) (f u) units)) as Q. destruct (target_loop f tags (mset (unit_tag_index t) (f u) units)). apply Q. auto.
Qed.
Lemma keyed_select : forall gl s k tags units, keyed units -> keyed (fst (select_loop gl s k tags units)).
Proof.
  induction tags as [|t tags IH]; intros units Hk; cbn [select_loop]; [exact Hk|]. cbv zeta. destruct (mget (unit_tag_index t) units) as [u|]; [|now apply IH].
  destruct (Bool.eqb (su_selected u) s); [apply IH; auto|]. match goal with |- context [select_loop gl s k tags ?x] => pose proof (IH x) as Q; destruct (select_loop gl s k tags x) end. apply Q. auto.
Qed.
Lemma keyed_position : forall gl l units, keyed units -> keyed (fst (position_loop gl l units)).
Proof.
  induction l as [|x l IH]; intros units Hk; cbn [position_loop]; [exact Hk|]. destruct (mget (up_tag x) units) as [u|]; [|now apply IH]. cbv zeta.
  match goal with |- context [position_loop gl l ?x] => pose proof (IH x) as Q; destruct (position_loop gl l x) end. apply Q. auto.
Qed.
Definition units_keyed (st : state) : Prop := keyed (st_units st).
Lemma keyed_unmark : forall st gl uid st' l, units_keyed st -> unmark_previously_selected_units st gl uid = Ok (st', l) -> units_keyed st'.
Proof.
  intros st gl uid st' l Hk E. unfold unmark_previously_selected_units in E. apply obind_ok in E as (tags & _ & E).
  pose proof (keyed_select gl false f32_half tags _ Hk) as Q. destruct (select_loop gl false f32_half tags (st_units st)). injection E as <- _. exact Q.
Qed.
Lemma keyed_mark : forall st gl tags, units_keyed st -> units_keyed (fst (mark_selected_units st gl tags)).
Proof.
  intros st gl tags Hk. unfold mark_selected_units. pose proof (keyed_select gl true f32_two tags _ Hk) as Q. destruct (select_loop gl true f32_two tags (st_units st)). exact Q.
Qed.
Lemma keyed_groups : forall st uid f st', units_keyed st -> change_groups st uid f = Ok st' -> units_keyed st'.
Proof.
  intros st uid f st' Hk E. unfold change_groups in E. destruct (mget uid (st_users st)); [|injection E as <-; exact Hk]. apply obind_ok in E as (gs & _ & E). injection E as <-. exact Hk.
Qed.
Lemma keyed_camera : forall st uid x, units_keyed st -> units_keyed (move_camera st uid x).
Proof. intros st uid x Hk. unfold move_camera. destruct (mget uid (st_users st)); exact Hk. Qed.
Lemma keyed_game : forall mc st gl uid e st' r, units_keyed st -> handle_game_event mc st gl uid e = Ok (st', r) -> units_keyed st'.
Proof.
  intros mc st gl uid e st' r Hk E. destruct e; cbn [handle_game_event] in E; try (injection E as <- _; exact Hk).
  all: try (apply fst_of in E; subst st').
  - now apply keyed_camera.
  - unfold handle_cmd in E. apply obind_ok in E as (tags & _ & E).
    match type of E with context [cmd_loop ?a ?b ?c ?d ?e ?f] => pose proof (keyed_cmd a b c d e f Hk) as Q; destruct (cmd_loop a b c d e f) as [u' [c' l']] end. injection E as <- _. exact Q.
  - unfold handle_selection_delta in E. apply obind_ok in E as ([st1 up] & E1 & E). apply obind_ok in E as (st2 & E2 & E). injection E as <- _. eapply keyed_groups; [|exact E2].
    destruct (_ =? _); [|injection E1 as <- _; exact Hk]. apply obind_ok in E1 as ([st3 un] & E3 & E1). apply keyed_unmark in E3; [|exact Hk].
    match type of E1 with context [mark_selected_units ?a ?b ?c] => pose proof (keyed_mark a b c E3) as Q; destruct (mark_selected_units a b c) end. injection E1 as <- _. exact Q.
  - unfold update_control_group in E. apply obind_ok in E as ([st1 up] & E1 & E). apply keyed_unmark in E1; [|exact Hk].
    destruct (cg_update _); apply obind_ok in E as (st2 & E2 & E); apply keyed_groups in E2; try exact E1; try (injection E as <- _; exact E2).
    apply obind_ok in E as (sel & _ & E). match type of E with context [mark_selected_units ?a ?b ?c] => pose proof (keyed_mark a b c E2) as Q; destruct (mark_selected_units a b c) end. injection E as <- _. exact Q.
  - unfold handle_camera_update. destruct (cu_target _); [now apply keyed_camera|exact Hk].
  - unfold handle_update_target_point in E. apply obind_ok in E as (tags & _ & E).
    match type of E with context [target_loop ?a ?b ?c] => pose proof (keyed_target a b c Hk) as Q; destruct (target_loop a b c) end. injection E as <- _. exact Q.
  - unfold handle_update_target_unit in E. destruct (match mget _ _ with Some x => Some x | None => _ end); [|injection E as <- _; exact Hk]. apply obind_ok in E as (tags & _ & E).
    match type of E with context [target_loop ?a ?b ?c] => pose proof (keyed_target a b c Hk) as Q; destruct (target_loop a b c) end. injection E as <- _. exact Q.
Qed.
Lemma keyed_tracker : forall mc st gl e st' r, units_keyed st -> handle_tracker_event mc st gl e = Ok (st', r) -> units_keyed st'.
Proof.
  intros mc st gl e st' r Hk E. destruct e; cbn [handle_tracker_event] in E; try (injection E as <- _; exact Hk).
  all: try (apply fst_of in E; subst st').
  - unfold handle_unit_born. destruct (ub_creator_index _) as [c|]; [destruct (mget c _)|]; (destruct (mget (ub_index _) _)); cbn [fst]; unfold units_keyed, with_units; cbn [st_units]; auto.
  - unfold handle_unit_died in E. apply obind_ok in E as (users & _ & E). destruct (mget _ _); injection E as <- _; unfold units_keyed; cbn; [now apply keyed_mdel|exact Hk].
  - unfold handle_unit_type_change. destruct (mget _ _); unfold units_keyed; cbn; now apply keyed_mset.
  - unfold handle_unit_init. destruct (mget _ _); unfold units_keyed; cbn; now apply keyed_mset.
  - unfold handle_unit_done. destruct (mget _ _); unfold units_keyed; cbn; [now apply keyed_mset|exact Hk].
  - unfold handle_unit_position in E. apply obind_ok in E as (l & _ & E). pose proof (keyed_position gl l _ Hk) as Q. destruct (position_loop gl l (st_units st)). injection E as <- _. exact Q.
  - unfold handle_player_setup. cbn [fst]. destruct (se_user_id _); [destruct (mget _ _)|]; exact Hk.
Qed.
Lemma reachable_keyed : forall mc st, reachable mc st -> units_keyed st.
Proof.
  intros mc st (st0 & evs & its & (init & d & b & Hs) & Hr). eapply (run_ind' mc units_keyed); [| |exact Hr].
  - apply starts_wf in Hs as (_ & Hu & _). unfold units_keyed. rewrite Hu. constructor.
  - intros st1 e st2 it _ Hi Hh. destruct e as [gl e|gl uid n e].
    + apply transition_tracker in Hh as (e' & h & Hh & _). eapply keyed_tracker; eauto.
    + apply transition_game in Hh as (e' & h & Hh & _). eapply keyed_game; eauto.
Qed.

(** ** Calls *)
Section Steps.
  Variable mc : machine.
  Variable p : proto.
  Lemma next_left : forall it r it', good it -> merge_next mc p it = Ok (r, it') -> (left_over it' + pending r <= left_over it)%nat.
  Proof.
    apply (merge_next_ind mc p (fun it r it' => (left_over it' + pending r <= left_over it)%nat)).
    - intros it it1 Hg Ea. destruct (advance_facts mc p _ _ _ Hg Ea) as (_ & Q & _). exact Q.
    - intros it e it1 st i Hg Ea _ _. destruct (advance_facts mc p _ _ _ Hg Ea) as (_ & Q & _). exact Q.
    - intros it e it1 st i f Hg Ea _ _ _. destruct (advance_facts mc p _ _ _ Hg Ea) as (_ & Q & _). cbn [pending] in Q. unfold left_over in *. cbn in *. destruct (max_reached (decrease_allowed f)); cbn [pending]; lia.
    - intros it e it1 st i f r it2 Hg Ea _ _ _ IH. destruct (advance_facts mc p _ _ _ Hg Ea) as (_ & Q & _). cbn [pending] in Q. unfold left_over in *. cbn in *. lia.
  Qed.
  Lemma skip_enough : forall n n' i it, good it -> (left_over it + pending i <= n)%nat -> (left_over it + pending i <= n')%nat -> skip_zero mc p n i it = skip_zero mc p n' i it.
  Proof.
    induction n as [|n IH]; intros n' i it Hg Hn Hn'; (destruct i as [x|]; cbn [pending] in *; [|destruct n'; reflexivity]); [lia|]. destruct n' as [|n']; [lia|]. cbn [skip_zero].
    destruct (item_loop x =? 0); [|reflexivity]. destruct (merge_next mc p it) as [[i' it']| |] eqn:E; cbn [obind]; try reflexivity.
    pose proof (next_left _ _ _ Hg E). apply IH; [eapply next_good; eauto|lia|lia].
  Qed.
  (** The loop of the code: with the fuel of [new_app], one more turn changes
      nothing. *)
  Lemma skip_unfold : forall n i it, good it -> (left_over it + pending i <= n)%nat ->
    skip_zero mc p n i it = match i with
      | Some x => if item_loop x =? 0 then do (i', it') <- merge_next mc p it; skip_zero mc p n i' it' else Ok (Some x, it)
      | None => Ok (None, it)
      end.
  Proof.
    intros n i it Hg Hn. rewrite (skip_enough n (Datatypes.S n) i it Hg Hn ltac:(lia)). destruct i as [x|]; cbn [skip_zero]; reflexivity.
  Qed.
  Lemma calls_app : forall n k it rs it1, merge_calls mc p n it = Ok (rs, it1) ->
    merge_calls mc p (n + k) it = (do (rs', it2) <- merge_calls mc p k it1; Ok (rs ++ rs', it2)).
  Proof.
    induction n as [|n IH]; intros k it rs it1 E; cbn [merge_calls Nat.add] in *.
    - injection E as <- <-. destruct (merge_calls mc p k it) as [[a b]| |]; reflexivity.
    - apply obind_ok in E as ([r it2] & E1 & E). apply obind_ok in E as ([rs2 it3] & E2 & E). injection E as <- <-. rewrite E1. cbn [obind]. rewrite (IH k _ _ _ E2).
      destruct (merge_calls mc p k it3) as [[a b]| |]; reflexivity.
  Qed.
  Lemma calls_snoc : forall n it rs it1 r it2, merge_calls mc p n it = Ok (rs, it1) -> merge_next mc p it1 = Ok (r, it2) -> merge_calls mc p (Datatypes.S n) it = Ok (rs ++ [r], it2).
  Proof. intros n it rs it1 r it2 E1 E2. replace (Datatypes.S n) with (n + 1)%nat by lia. rewrite (calls_app _ 1 _ _ _ E1). cbn [merge_calls]. rewrite E2. reflexivity. Qed.
  Lemma calls_length : forall n it rs it', merge_calls mc p n it = Ok (rs, it') -> length rs = n.
  Proof.
    induction n as [|n IH]; intros it rs it' E; cbn [merge_calls] in E; [injection E as <- <-; reflexivity|].
    apply obind_ok in E as ([r it1] & E1 & E). apply obind_ok in E as ([rs1 it2] & E2 & E). injection E as <- <-. cbn [length]. f_equal. eauto.
  Qed.
  Lemma skip_calls : forall n i it i' it', skip_zero mc p n i it = Ok (i', it') -> exists z rs,
    merge_calls mc p z it = Ok (rs, it') /\ Forall of_loop_zero (firstn z (i :: rs)) /\ nth_error (i :: rs) z = Some i' /\ ~ of_loop_zero i'.
  Proof.
    assert (Q : forall x, item_loop x = event_loop (it_event x)) by reflexivity.
    assert (Base : forall n i it i' it', (i = None \/ exists x, i = Some x /\ item_loop x <> 0) -> skip_zero mc p n i it = Ok (i', it') -> exists z rs,
      merge_calls mc p z it = Ok (rs, it') /\ Forall of_loop_zero (firstn z (i :: rs)) /\ nth_error (i :: rs) z = Some i' /\ ~ of_loop_zero i').
    { intros n i it i' it' Hi E. assert (i' = i /\ it' = it) as [-> ->].
      { destruct Hi as [->|(x & -> & Hx)]; [destruct n; injection E as <- <-; auto|]. rewrite <- Z.eqb_neq in Hx. destruct n; cbn [skip_zero] in E; rewrite Hx in E; injection E as <- <-; auto. }
      exists O, []. split; [reflexivity|]. split; [constructor|]. split; [reflexivity|]. intros (x & -> & Hx). destruct Hi as [?|(y & Ey & Hy)]; [discriminate|]. assert (x = y) by congruence. subst. auto. }
    induction n as [|n IH]; intros i it i' it' E; (destruct i as [x|]; [|eapply Base; [left; reflexivity|exact E]]);
    (destruct (Z.eq_dec (item_loop x) 0) as [Hz|Hz]; [|eapply Base; [right; eauto|exact E]]); cbn [skip_zero] in E; rewrite Hz in E; cbn [Z.eqb] in E; [discriminate|].
    apply obind_ok in E as ([i1 it1] & E1 & E). apply IH in E as (z & rs & E2 & F & N & L). exists (Datatypes.S z), (i1 :: rs). split; [cbn [merge_calls]; rewrite E1; cbn [obind]; rewrite E2; reflexivity|].
    split; [|split; [exact N|exact L]]. change (firstn (Datatypes.S z) (Some x :: i1 :: rs)) with (Some x :: firstn z (i1 :: rs)). constructor; [exists x; auto|exact F].
  Qed.
  Lemma last_nth : forall A (l : list A) d n a, nth_error l n = Some a -> length l = Datatypes.S n -> last l d = a.
  Proof.
    intros A l d n a. revert l. induction n as [|n IH]; intros [|x l] E L; cbn in *; try discriminate.
    - destruct l; [congruence|discriminate].
    - injection L as L. destruct l; [discriminate|]. apply IH in E; [|exact L]. exact E.
  Qed.
  Lemma new_opens : forall it players size a, new_app mc p it players size = Ok a -> exists z answers,
    merge_calls mc p (Datatypes.S z) it = Ok (answers, ap_iter a) /\ opens_after z answers /\ ap_current a = last answers None /\
    ap_players a = players /\ ap_size a = size /\ ap_exit a = false.
  Proof.
    intros it players size a E. unfold new_app in E. apply obind_ok in E as ([i it1] & E1 & E). apply obind_ok in E as ([i2 it2] & E2 & E). assert (a = mk_app false 0 0 0 [] false players size it2 i2) by congruence. subst a. cbn [ap_iter ap_current ap_players ap_size ap_exit].
    apply skip_calls in E2 as (z & rs & E2 & F & N & L). exists z, (i :: rs). split; [cbn [merge_calls]; rewrite E1; cbn [obind]; rewrite E2; reflexivity|].
    split; [split; [exact F|exists i2; auto]|]. split; [|auto]. symmetry. apply last_nth with (n := z); [exact N|]. cbn [length]. f_equal. eapply calls_length, E2.
  Qed.

  (** ** Turns *)
  Lemma key_cases : forall k kind a a', handle_key_press mc p k kind a = Ok a' ->
    ap_players a' = ap_players a /\ ap_size a' = ap_size a /\
    (ap_exit a' = true <-> ap_exit a = true \/ (kind = KPress /\ In k quit_keys)) /\
    ((kind = KPress /\ In k next_keys) /\ merge_next mc p (ap_iter a) = Ok (ap_current a', ap_iter a') \/
     (~ (kind = KPress /\ In k next_keys)) /\ ap_current a' = ap_current a /\ ap_iter a' = ap_iter a).
  Proof.
    intros k kind a a' E. unfold handle_key_press in E.
    destruct kind; [|injection E as <-; (split; [reflexivity|]; split; [reflexivity|]; split; [intuition discriminate|right; intuition discriminate])..].
    destruct k as [c| | | | | |].
    1:{ destruct c as [[] [] [] [] [] [] [] []];
        try (injection E as <-; cbn; (split; [reflexivity|]); (split; [reflexivity|]); (split; [intuition discriminate|right; intuition discriminate]));
        try (unfold forward in E; apply obind_ok in E as ([i it] & E & E2); injection E2 as <-; cbn; (split; [reflexivity|]); (split; [reflexivity|]); (split; [intuition discriminate|left; intuition]); fail). }
    all: try (injection E as <-; cbn; (split; [reflexivity|]); (split; [reflexivity|]); (split; [intuition discriminate|right; intuition discriminate])).
    unfold forward in E; apply obind_ok in E as ([i it] & E & E2); injection E2 as <-; cbn; (split; [reflexivity|]); (split; [reflexivity|]); (split; [intuition discriminate|left; intuition]).
  Qed.
  Lemma turn_facts : forall t a a', take_turn mc p t a = Ok a' -> ap_players a' = ap_players a /\ ap_size a' = ap_size a /\
    (ap_exit a' = true <-> ap_exit a = true \/ pressed t quit_keys) /\
    (pressed t next_keys /\ merge_next mc p (ap_iter a) = Ok (ap_current a', ap_iter a') \/
     ~ pressed t next_keys /\ ap_current a' = ap_current a /\ ap_iter a' = ap_iter a).
  Proof.
    intros [i tick] a a' E. unfold take_turn in E. apply obind_ok in E as (a1 & E & E2). cbn [fst snd] in *.
    assert (T : ap_players a' = ap_players a1 /\ ap_size a' = ap_size a1 /\ ap_exit a' = ap_exit a1 /\ ap_current a' = ap_current a1 /\ ap_iter a' = ap_iter a1).
    { injection E2 as <-. destruct tick; cbn; auto. }
    destruct T as (-> & -> & -> & -> & ->). unfold pressed. cbn [fst].
    assert (Pass : forall a1, (forall k, i <> Some (IKey k KPress)) -> ap_players a1 = ap_players a -> ap_size a1 = ap_size a -> ap_exit a1 = ap_exit a -> ap_current a1 = ap_current a -> ap_iter a1 = ap_iter a ->
      ap_players a1 = ap_players a /\ ap_size a1 = ap_size a /\ (ap_exit a1 = true <-> ap_exit a = true \/ (exists k, i = Some (IKey k KPress) /\ In k quit_keys)) /\
      ((exists k, i = Some (IKey k KPress) /\ In k next_keys) /\ merge_next mc p (ap_iter a) = Ok (ap_current a1, ap_iter a1) \/
       ~ (exists k, i = Some (IKey k KPress) /\ In k next_keys) /\ ap_current a1 = ap_current a /\ ap_iter a1 = ap_iter a)).
    { intros b Hi -> -> -> -> ->. split; [reflexivity|]. split; [reflexivity|]. split; [split; [auto|]; intros [?|(k & Ek & _)]; [assumption|destruct (Hi _ Ek)]|]. right. split; [intros (k & Ek & _); destruct (Hi _ Ek)|auto]. }
    destruct i as [[k kind|m|]|].
    - apply key_cases in E as (A & B & C & D). split; [exact A|]. split; [exact B|].
      assert (K : forall keys, (exists k0, Some (IKey k kind) = Some (IKey k0 KPress) /\ In k0 keys) <-> kind = KPress /\ In k keys).
      { intros keys. split; [intros (k0 & E0 & Hk); injection E0 as -> ->; auto|intros [-> Hk]; eauto]. }
      rewrite !K. auto.
    - injection E as <-. apply Pass; [discriminate|destruct m; reflexivity..].
    - injection E as <-. apply Pass; [discriminate|reflexivity..].
    - injection E as <-. apply Pass; [discriminate|reflexivity..].
  Qed.

  (** ** Frames *)
  Lemma pressed_dec : forall t keys, {pressed t keys} + {~ pressed t keys}.
  Proof.
    assert (Kd : forall a b : key, {a = b} + {a <> b}) by (decide equality; apply ascii_dec).
    intros [i tick] keys. unfold pressed. cbn [fst]. destruct i as [[k kind|m|]|]; try (right; intros (k0 & E & _); discriminate).
    destruct kind; try (right; intros (k0 & E & _); discriminate). destruct (in_dec Kd k keys) as [Hi|Hn]; [left; eauto|right]. intros (k0 & E & Hk). injection E as ->. auto.
  Qed.
  Lemma presses_total : forall l, exists n, presses l n.
  Proof. induction l as [|t l (n & IH)]; [eexists; constructor|]. destruct (pressed_dec t next_keys); eexists; [apply pr_next|apply pr_other]; eauto. Qed.
  Lemma presses_unique : forall l n m, presses l n -> presses l m -> n = m.
  Proof. intros l n m H1. revert m. induction H1; intros m' H2; inversion H2; subst; try contradiction; auto. Qed.
  Lemma turns_unique : forall l, (exists n, presses l n /\ forall m, presses l m -> m = n) /\ (exists q, before_quit l q /\ forall r, before_quit l r -> r = q).
  Proof.
    intros l. split.
    - destruct (presses_total l) as [n Hn]. exists n. split; [exact Hn|]. intros m Hm. eapply presses_unique; eauto.
    - induction l as [|t l (q & Hq & Uq)]; [exists []; split; [constructor|]; intros r Hr; inversion Hr; reflexivity|].
      destruct (pressed_dec t quit_keys) as [Hp|Hp]; eexists; (split; [first [apply bq_quit; exact Hp|apply bq_other; [exact Hp|exact Hq]]|]); intros r Hr; inversion Hr; subst; try contradiction; try reflexivity. f_equal. auto.
  Qed.
  Lemma view_length : forall ts a fs z, view mc p ts a = Ok (fs, z) -> ap_exit a = false -> exists m, before_quit ts m /\ length fs = Datatypes.S (length m).
  Proof.
    induction ts as [|t ts IH]; intros a fs z E Hx; cbn [view] in E; rewrite Hx in E.
    - injection E as <- <-. exists []. split; [constructor|reflexivity].
    - apply obind_ok in E as (a' & Et & E). apply obind_ok in E as ([fs' z'] & Ev & E). injection E as <- <-. apply turn_facts in Et as (_ & _ & Hq & _).
      destruct (pressed_dec t quit_keys) as [Hp|Hn].
      + exists []. split; [now apply bq_quit|]. assert (Ha : ap_exit a' = true) by (apply Hq; auto). destruct ts; cbn [view] in Ev; rewrite Ha in Ev; injection Ev as <- <-; reflexivity.
      + assert (Ha : ap_exit a' = false). { destruct (ap_exit a'); [|reflexivity]. destruct (proj1 Hq eq_refl); [congruence|contradiction]. }
        destruct (IH _ _ _ Ev Ha) as (m & Hm & L). exists (t :: m). split; [now apply bq_other|]. cbn [length]. congruence.
  Qed.
  Lemma view_frames : forall ts a fs z it n answers, view mc p ts a = Ok (fs, z) -> merge_calls mc p (Datatypes.S n) it = Ok (answers, ap_iter a) -> ap_current a = last answers None ->
    forall k f, nth_error fs k = Some f -> exists m a' answers', presses (firstn k ts) m /\ merge_calls mc p (Datatypes.S n + m) it = Ok (answers', ap_iter a') /\
      ap_current a' = last answers' None /\ ap_players a' = ap_players a /\ ap_size a' = ap_size a /\ f = draw a'.
  Proof.
    induction ts as [|t ts IH]; intros a fs z it n answers E Hc Hl k f Hk; cbn [view] in E; (destruct (ap_exit a); [injection E as <- _; destruct k; discriminate|]).
    - injection E as <- <-. destruct k as [|k]; [|destruct k; discriminate]. injection Hk as <-. exists O, a, answers. split; [constructor|]. rewrite Nat.add_0_r. auto.
    - apply obind_ok in E as (a1 & Et & E). apply obind_ok in E as ([fs' z'] & Ev & E). injection E as <- <-. destruct k as [|k].
      + injection Hk as <-. exists O, a, answers. split; [constructor|]. rewrite Nat.add_0_r. auto.
      + cbn [nth_error] in Hk. apply turn_facts in Et as (P1 & S1 & _ & [[Hp Hm]|(Hp & C1 & I1)]).
        * pose proof (calls_snoc _ _ _ _ _ _ Hc Hm) as Hc1. destruct (IH _ _ _ it (Datatypes.S n) (answers ++ [ap_current a1]) Ev Hc1 ltac:(now rewrite last_last) _ _ Hk) as (m & a' & ans & Pm & Ec & Lc & Pp & Ps & ->).
          exists (Datatypes.S m), a', ans. split; [cbn [firstn]; now apply pr_next|]. split; [rewrite <- Ec; f_equal; lia|]. rewrite <- P1, <- S1. auto.
        * destruct (IH _ _ _ it n answers Ev ltac:(now rewrite I1) ltac:(now rewrite C1) _ _ Hk) as (m & a' & ans & Pm & Ec & Lc & Pp & Ps & ->).
          exists m, a', ans. split; [cbn [firstn]; now apply pr_other|]. rewrite <- P1, <- S1. auto.
  Qed.
End Steps.

(** ** The state a frame is drawn from *)
Section Pictures.
  Variable mc : machine.
  Variable p : proto.
  Definition ends_with (items : list item) (r : option item) : Prop := match r with Some i => last (map Some items) None = Some i | None => True end.
  Lemma ends_app : forall l l' r, ends_with l' r -> ends_with (l ++ l') r.
  Proof.
    intros l l' [i|] H1; [|exact Logic.I]. unfold ends_with in *. rewrite map_app. destruct l' as [|x l'] using rev_ind; [discriminate|].
    rewrite map_app in *. cbn [map] in *. rewrite app_assoc, last_last. rewrite last_last in H1. exact H1.
  Qed.
  Lemma next_history : forall it r it', good it -> merge_next mc p it = Ok (r, it') -> exists evs items, run mc (mg_state it) evs = Ok (mg_state it', items) /\ ends_with items r.
  Proof.
    assert (One : forall st e st' i, handle_transition mc st e = Ok (st', i) -> run mc st [e] = Ok (st', [i])) by (intros st e st' i E; cbn [run]; rewrite E; reflexivity).
    apply (merge_next_ind mc p (fun it r it' => exists evs items, run mc (mg_state it) evs = Ok (mg_state it', items) /\ ends_with items r)).
    - intros it it1 Hg Ea. destruct (advance_facts mc p _ _ _ Hg Ea) as (_ & _ & S1 & _). exists [], []. rewrite S1. split; [reflexivity|exact Logic.I].
    - intros it e it1 st i Hg Ea Eh _. exists [e], [i]. split; [apply One, Eh|reflexivity].
    - intros it e it1 st i f Hg Ea Eh _ _. exists [e], [i]. split; [apply One, Eh|]. destruct (max_reached _); [exact Logic.I|reflexivity].
    - intros it e it1 st i f r it2 Hg Ea Eh _ _ (evs & items & E & L). exists (e :: evs), (i :: items). cbn [with_state mg_state] in E. split; [|apply (ends_app [i]), L].
      change (e :: evs) with ([e] ++ evs). rewrite (run_app _ _ _ evs _ _ (One _ _ _ _ Eh)), E. reflexivity.
  Qed.
  Lemma calls_split : forall n it answers it', merge_calls mc p (Datatypes.S n) it = Ok (answers, it') -> exists rs it1 r, merge_calls mc p n it = Ok (rs, it1) /\ merge_next mc p it1 = Ok (r, it') /\ answers = rs ++ [r].
  Proof.
    induction n as [|n IH]; intros it answers it' E.
    - cbn [merge_calls] in E. apply obind_ok in E as ([r it1] & E1 & E). cbn [obind] in E. injection E as <- <-. exists [], it, r. auto.
    - change (merge_calls mc p (Datatypes.S (Datatypes.S n)) it) with (do (r, it1) <- merge_next mc p it; do (rs, it2) <- merge_calls mc p (Datatypes.S n) it1; Ok (r :: rs, it2)) in E.
      apply obind_ok in E as ([r it1] & E1 & E). apply obind_ok in E as ([rs it2] & E2 & E). injection E as <- <-. apply IH in E2 as (rs' & it3 & r' & E2 & E3 & ->).
      exists (r :: rs'), it3, r'. split; [cbn [merge_calls]; rewrite E1; cbn [obind]; rewrite E2; reflexivity|]. auto.
  Qed.
  Lemma calls_history : forall n it answers it', good it -> merge_calls mc p n it = Ok (answers, it') -> exists evs items, run mc (mg_state it) evs = Ok (mg_state it', items) /\ ends_with items (last answers None).
  Proof.
    induction n as [|n IH]; intros it answers it' Hg E.
    - injection E as <- <-. exists [], []. split; [reflexivity|exact Logic.I].
    - apply calls_split in E as (rs & it1 & r & E1 & E2 & ->). destruct (IH _ _ _ Hg E1) as (evs1 & is1 & R1 & L1).
      destruct (next_history _ _ _ (calls_good mc p _ _ _ _ Hg E1) E2) as (evs2 & is2 & R2 & L2).
      exists (evs1 ++ evs2), (is1 ++ is2). split; [rewrite (run_app _ _ _ evs2 _ _ R1), R2; reflexivity|]. rewrite last_last. now apply ends_app.
  Qed.

  (** ** Pictures *)
  Lemma circle_ok : forall u, circle_shows u (circle_of u).
  Proof.
    intros u. unfold circle_shows, circle_of. destruct (su_pos u) as [[x y] z]. destruct (su_color u) as [[[r g] b] a]. cbn. split; [eauto|]. split; [reflexivity|]. exists r, g, b, a. auto.
  Qed.
  Lemma keyed_listing : forall A (l : list (Z * A)), keyed l -> (forall i, In i (map fst l) <-> mget i l <> None) /\
    forall B (f : Z * A -> B) (R : Z -> A -> B -> Prop), (forall i a, R i a (f (i, a))) -> Forall2 (fun i b => exists a, mget i l = Some a /\ R i a b) (map fst l) (map f l).
  Proof.
    intros A l Hk. split.
    - intros i. pose proof (mget_None l i) as Q. split; [intros Hi E; apply Q in E; auto|]. intros Hn. destruct (in_dec Z.eq_dec i (map fst l)) as [Hi|Hi]; [exact Hi|]. apply Q in Hi. contradiction.
    - intros B f R HR. assert (G : forall l', (forall x, In x l' -> In x l) -> Forall2 (fun i b => exists a, mget i l = Some a /\ R i a b) (map fst l') (map f l')).
      { induction l' as [|[i a] l' IH]; intros Hs; cbn [map fst]; constructor; [|apply IH; intros x Hx; apply Hs; now right]. exists a. split; [|apply HR]. apply In_mget; [exact Hk|]. apply Hs. now left. }
      apply G. auto.
  Qed.
  Lemma map_ok : forall st, reachable mc st -> map_shows st (map (fun x => circle_of (snd x)) (st_units st)).
  Proof.
    intros st Hr. apply reachable_keyed in Hr. destruct (keyed_listing _ _ Hr) as [A B]. exists (map fst (st_units st)). split; [exact Hr|]. split; [exact A|].
    apply (B _ (fun x => circle_of (snd x)) (fun _ u c => circle_shows u c)). intros i a. apply circle_ok.
  Qed.
  Lemma cameras_ok : forall players st, reachable mc st -> cameras_show (get_player_color players) st (map (box_of players) (st_users st)).
  Proof.
    intros players st Hr. apply reachable_wf in Hr as [Hk _]. destruct (keyed_listing _ _ Hk) as [A B]. exists (map fst (st_users st)). split; [exact Hk|]. split; [exact A|].
    apply (B _ (box_of players) (fun i us c => bx_center c = us_camera us /\ bx_color c = get_player_color players i)). intros i a. split; reflexivity.
  Qed.
  Lemma lines_ok : forall st tags, Forall2 line_shows (units_at st (indices tags)) (flat_map (tag_line (st_units st)) tags).
  Proof.
    intros st tags. unfold indices, units_at. induction tags as [|t tags IH]; cbn [map flat_map]; [constructor|]. unfold tag_line at 1. change (mget (unit_tag_index t) (st_units st)) with (unit_of st (unit_tag_index t)).
    destruct (unit_of st (unit_tag_index t)) as [u|]; [|exact IH]. cbn [app]. constructor; [|exact IH]. unfold line_shows, line_of. cbn. auto.
  Qed.
  Lemma panel_ok : forall st k uid us, wf st -> nth_error (st_users st) k = Some (uid, us) -> selection_shows st uid (selected_player_units st k).
  Proof.
    intros st k uid us [Hk _] E. unfold selection_shows, selected_player_units, selection, group_of. rewrite E.
    replace (user_of st uid) with (Some us); [apply lines_ok|]. symmetry. apply In_mget; [exact Hk|]. eapply nth_error_In, E.
  Qed.

  (** ** The end *)
  Definition no_limit (it : merged) : Prop := match mg_filters it with Some f => fi_events f = None | None => True end.
  Lemma next_quiet : forall names it r it', good it -> merge_next mc p it = Ok (r, it') -> wf (mg_state it) -> no_limit it -> forall evs, scheduled mc p names it (map Some evs) ->
    wf (mg_state it') /\ no_limit it' /\ exists evs', scheduled mc p names it' (map Some evs') /\ (r = None -> evs' = []) /\ (evs = [] -> r = None /\ mg_state it' = mg_state it).
  Proof.
    intros names. assert (Step : forall it e it1 st i evs, good it -> wf (mg_state it) -> advance mc p it = Ok (Some e, it1) -> handle_transition mc (mg_state it) e = Ok (st, i) -> scheduled mc p names it (map Some evs) ->
      exists evs2, evs = e :: evs2 /\ scheduled mc p names (with_state st it1) (map Some evs2) /\ wf st /\ mg_filters it1 = mg_filters it).
    { intros it e it1 st i evs Hg Hw Ea Eh Hs. destruct (advance_scheduled mc p names it _ Hs) as (it2 & Ea2 & Hs2). rewrite Ea in Ea2. injection Ea2 as He ->.
      destruct evs as [|e' evs2]; [discriminate|]. cbn in He, Hs2. injection He as ->. exists evs2. split; [reflexivity|].
      destruct (advance_facts mc p _ _ _ Hg Ea) as (_ & _ & S1 & F1). split; [|split; [eapply step_wf; eauto|exact F1]].
      destruct Hs2 as (Hn & Hs2). split; [|exact Hs2]. cbn. intros u. rewrite (step_names mc _ _ _ _ Hw Eh u), <- S1. apply Hn. }
    apply (merge_next_ind mc p (fun it r it' => wf (mg_state it) -> no_limit it -> forall evs, scheduled mc p names it (map Some evs) ->
      wf (mg_state it') /\ no_limit it' /\ exists evs', scheduled mc p names it' (map Some evs') /\ (r = None -> evs' = []) /\ (evs = [] -> r = None /\ mg_state it' = mg_state it))).
    - intros it it1 Hg Ea Hw Hn evs Hs. destruct (advance_facts mc p _ _ _ Hg Ea) as (_ & _ & S1 & F1). split; [rewrite S1; exact Hw|]. split; [unfold no_limit; rewrite F1; exact Hn|].
      destruct (advance_scheduled mc p names it _ Hs) as (it2 & Ea2 & Hs2). rewrite Ea in Ea2. injection Ea2 as He ->. destruct evs; [|discriminate]. exists []. split; [exact Hs2|]. auto.
    - intros it e it1 st i Hg Ea Eh Hf Hw Hn evs Hs. destruct (Step _ _ _ _ _ _ Hg Hw Ea Eh Hs) as (evs2 & -> & Hs2 & Hw2 & F1). split; [exact Hw2|]. split; [unfold no_limit; cbn; rewrite F1, Hf; exact Logic.I|].
      exists evs2. split; [exact Hs2|]. split; discriminate.
    - intros it e it1 st i f Hg Ea Eh Hf Hsk Hw Hn evs Hs. destruct (Step _ _ _ _ _ _ Hg Hw Ea Eh Hs) as (evs2 & -> & Hs2 & Hw2 & F1). split; [exact Hw2|].
      unfold no_limit in Hn. rewrite Hf in Hn. assert (D : decrease_allowed f = f) by (unfold decrease_allowed; now rewrite Hn). rewrite D. split; [unfold no_limit; cbn; exact Hn|].
      exists evs2. split; [exact Hs2|]. unfold max_reached. rewrite Hn. split; discriminate.
    - intros it e it1 st i f r it2 Hg Ea Eh Hf Hsk IH Hw Hn evs Hs. destruct (Step _ _ _ _ _ _ Hg Hw Ea Eh Hs) as (evs2 & -> & Hs2 & Hw2 & F1).
      assert (Hn1 : no_limit (with_state st it1)) by (unfold no_limit in *; cbn; rewrite F1; exact Hn). destruct (IH Hw2 Hn1 _ Hs2) as (W & N & evs3 & S3 & R3 & _). split; [exact W|]. split; [exact N|].
      exists evs3. split; [exact S3|]. split; [exact R3|discriminate].
  Qed.
  Definition on_course (names : Z -> option string) (r : option item) (it : merged) : Prop :=
    good it /\ wf (mg_state it) /\ no_limit it /\ exists evs, scheduled mc p names it (map Some evs) /\ (r = None -> evs = []).
  Lemma course_next : forall names r it r' it', on_course names r it -> merge_next mc p it = Ok (r', it') -> on_course names r' it' /\ (r = None -> r' = None /\ mg_state it' = mg_state it).
  Proof.
    intros names r it r' it' (Hg & Hw & Hn & evs & Hs & Hr) E. destruct (next_quiet names _ _ _ Hg E Hw Hn _ Hs) as (W & N & evs' & S' & R' & Q).
    split; [split; [eapply next_good; eauto|]; split; [exact W|]; split; [exact N|]; exists evs'; auto|]. intros E0. apply Q, Hr, E0.
  Qed.
  Lemma course_calls : forall names it evs n answers it', good it -> wf (mg_state it) -> no_limit it -> scheduled mc p names it (map Some evs) ->
    merge_calls mc p (Datatypes.S n) it = Ok (answers, it') -> on_course names (last answers None) it'.
  Proof.
    intros names it evs n answers it' Hg Hw Hn Hs. revert answers it'. induction n as [|n IH]; intros answers it' E; apply calls_split in E as (rs & it1 & r & E1 & E2 & ->); rewrite last_last.
    - injection E1 as <- <-. destruct (next_quiet names _ _ _ Hg E2 Hw Hn _ Hs) as (W & N & evs' & S' & R' & _). split; [eapply next_good; eauto|]. split; [exact W|]. split; [exact N|]. exists evs'. auto.
    - apply IH in E1. eapply course_next; eauto.
  Qed.
  Lemma draw_same : forall a a', ap_current a' = ap_current a -> mg_state (ap_iter a') = mg_state (ap_iter a) -> ap_players a' = ap_players a -> ap_size a' = ap_size a -> draw a' = draw a.
  Proof. intros a a' E1 E2 E3 E4. unfold draw. now rewrite E1, E2, E3, E4. Qed.
  Lemma course_turn : forall names t a a', on_course names (ap_current a) (ap_iter a) -> take_turn mc p t a = Ok a' -> on_course names (ap_current a') (ap_iter a') /\ (ap_current a = None -> draw a' = draw a /\ ap_current a' = None).
  Proof.
    intros names t a a' Hc E. apply turn_facts in E as (P1 & S1 & _ & [[_ Hm]|(_ & C1 & I1)]).
    - destruct (course_next _ _ _ _ _ Hc Hm) as [C Q]. split; [exact C|]. intros E0. destruct (Q E0) as [Q1 Q2]. split; [|exact Q1]. apply draw_same; congruence.
    - rewrite C1, I1. split; [exact Hc|]. intros E0. split; [|exact E0]. apply draw_same; congruence.
  Qed.
  Lemma view_quiet : forall names ts a fs z, view mc p ts a = Ok (fs, z) -> on_course names (ap_current a) (ap_iter a) -> ap_current a = None -> forall f, In f fs -> f = draw a.
  Proof.
    intros names. induction ts as [|t ts IH]; intros a fs z E Hc Hn f Hf; cbn [view] in E; (destruct (ap_exit a); [injection E as <- _; destruct Hf|]).
    - injection E as <- _. destruct Hf as [<-|[]]. reflexivity.
    - apply obind_ok in E as (a1 & Et & E). apply obind_ok in E as ([fs' z'] & Ev & E). injection E as <- _. destruct Hf as [<-|Hf]; [reflexivity|].
      destruct (course_turn _ _ _ _ Hc Et) as [C1 Q]. destruct (Q Hn) as [D1 N1]. rewrite (IH _ _ _ Ev C1 N1 _ Hf). exact D1.
  Qed.
  Lemma view_ends : forall names ts a fs z, view mc p ts a = Ok (fs, z) -> on_course names (ap_current a) (ap_iter a) ->
    forall i j f g, (i <= j)%nat -> nth_error fs i = Some f -> nth_error fs j = Some g -> fr_event f = None -> g = f.
  Proof.
    intros names. induction ts as [|t ts IH]; intros a fs z E Hc i j f g Hij Hi Hj Hf; pose proof (view_quiet names _ _ _ _ E Hc) as VQ; cbn [view] in E; (destruct (ap_exit a); [injection E as <- _; destruct i; discriminate|]).
    - injection E as <- _. destruct i as [|i]; [|destruct i; discriminate]. destruct j as [|j]; [|destruct j; discriminate]. congruence.
    - apply obind_ok in E as (a1 & Et & E). apply obind_ok in E as ([fs' z'] & Ev & E). injection E as <- _. destruct i as [|i].
      + injection Hi as <-. apply (VQ Hf). eapply nth_error_In, Hj.
      + destruct j as [|j]; [lia|]. cbn [nth_error] in *. destruct (course_turn _ _ _ _ Hc Et) as [C1 _]. eapply (IH _ _ _ Ev C1 i j); eauto. lia.
  Qed.
End Pictures.

(** ** Statements used in PropsViewer.v *)
Lemma opens_app : forall z a b, opens_after z a -> opens_after z (a ++ b).
Proof.
  intros z a b [F (x & N & L)]. assert (z < length a)%nat by (apply nth_error_Some; congruence). split.
  - rewrite firstn_app. replace (z - length a)%nat with O by lia. cbn [firstn]. now rewrite app_nil_r.
  - exists x. split; [|exact L]. now rewrite nth_error_app1.
Qed.
Lemma viewer_steps : forall mc p init d b st t g f players size a ts frames z', starts init d b st -> bytes_ok t -> bytes_ok g ->
  new_app mc p (merge_start st t g f) players size = Ok a -> view mc p ts a = Ok (frames, z') ->
  (exists m, before_quit ts m /\ length frames = Datatypes.S (length m)) /\
  exists z, forall k fr, nth_error frames k = Some fr -> exists n answers it', presses (firstn k ts) n /\
    merge_calls mc p (Datatypes.S z + n) (merge_start st t g f) = Ok (answers, it') /\ opens_after z answers /\
    fr_event fr = last answers None /\ map_shows (mg_state it') (fr_circles fr) /\ cameras_show (get_player_color players) (mg_state it') (fr_boxes fr).
Proof.
  intros mc p init d b st t g f players size a ts frames z' Hs Ht Hg En Ev. apply new_opens in En as (z & ans & Ec & Ho & Hl & Pp & Ps & Hx). split; [eapply view_length; eauto|].
  exists z. intros k fr Hk. destruct (view_frames mc p _ _ _ _ _ z ans Ev Ec Hl _ _ Hk) as (n & a' & ans' & Pn & Ec' & Lc & Pp' & Ps' & ->). exists n, ans', (ap_iter a'). split; [exact Pn|]. split; [exact Ec'|].
  assert (Hr : reachable mc (mg_state (ap_iter a'))).
  { destruct (calls_history mc p _ _ _ _ (start_good st t g f Ht Hg) Ec') as (evs & items & R & _). exists st, evs, items. split; [eauto|exact R]. }
  split; [|split; [exact Lc|split; [now apply (map_ok mc)|]]].
  - rewrite (calls_app mc p _ n _ _ _ Ec) in Ec'. apply obind_ok in Ec' as ([rs it2] & _ & E). assert (ans' = ans ++ rs) by congruence. subst ans'. now apply opens_app.
  - cbn [draw fr_boxes]. rewrite Pp', Pp. exact (cameras_ok mc players _ Hr).
Qed.
Lemma viewer_ends : forall mc p init d b st tevs t gevs g f players size a ts frames z', starts init d b st -> sectors_of mc p tevs t gevs g -> match f with Some f => fi_events f = None | None => True end ->
  new_app mc p (merge_start st t g f) players size = Ok a -> view mc p ts a = Ok (frames, z') ->
  forall i j fi fj, (i <= j)%nat -> nth_error frames i = Some fi -> nth_error frames j = Some fj -> fr_event fi = None -> fj = fi.
Proof.
  intros mc p init d b st tevs t gevs g f players size a ts frames z' Hs Hp Hf En Ev. apply new_opens in En as (z & ans & Ec & Ho & Hl & _).
  destruct (sectors_scheduled mc p tevs t gevs g st f Hp) as (_ & _ & evs & _ & _ & _ & _ & S). destruct Hp as (Ht & Hg & _).
  assert (C : on_course mc p (player_names st) (ap_current a) (ap_iter a)).
  { rewrite Hl. refine (course_calls mc p _ _ evs z ans _ (start_good st t g f Ht Hg) _ Hf S Ec). apply (starts_wf _ _ _ _ Hs). }
  exact (view_ends mc p _ _ _ _ _ Ev C).
Qed.
(** What is on the map, by the events alone. *)
Lemma viewer_map : forall mc p init d b st t g f players size a ts frames z' k fr, starts init d b st -> bytes_ok t -> bytes_ok g ->
  new_app mc p (merge_start st t g f) players size = Ok a -> view mc p ts a = Ok (frames, z') -> nth_error frames k = Some fr ->
  exists evs items st', run mc st evs = Ok (st', items) /\ (forall i, fr_event fr = Some i -> exists before, items = before ++ [i]) /\
    (exists ids, NoDup ids /\ (forall i, In i ids <-> alive i evs) /\ Forall2 (fun i c => exists u, unit_of st' i = Some u /\ circle_shows u c) ids (fr_circles fr)) /\
    (exists uids, NoDup uids /\ (forall u, In u uids <-> user_of st u <> None) /\
      Forall2 (fun u c => bx_center c = match last_some (camera_target u) evs with Some x => x | None => mk_point 0 0 end) uids (fr_boxes fr)).
Proof.
  intros mc p init d b st t g f players size a ts frames z' k fr Hs Ht Hg En Ev Hk. apply new_opens in En as (z & ans & Ec & Ho & Hl & Pp & Ps & Hx).
  destruct (view_frames mc p _ _ _ _ _ z ans Ev Ec Hl _ _ Hk) as (n & a' & ans' & Pn & Ec' & Lc & Pp' & Ps' & ->).
  destruct (calls_history mc p _ _ _ _ (start_good st t g f Ht Hg) Ec') as (evs & items & R & L). cbn [merge_start mg_state] in R. exists evs, items, (mg_state (ap_iter a')). split; [exact R|].
  assert (Hh : history mc st evs (mg_state (ap_iter a')) items) by (split; [eauto|exact R]). assert (Hr : reachable mc (mg_state (ap_iter a'))) by (exists st, evs, items; exact Hh).
  split; [|split].
  - intros i E. cbn [draw fr_event] in E. rewrite <- Lc, E in L. cbn in L. destruct items as [|x items _] using rev_ind; [discriminate|]. rewrite map_app in L. cbn [map] in L. rewrite last_last in L. injection L as ->. eauto.
  - destruct (map_ok mc _ Hr) as (ids & Nd & Ii & F). exists ids. split; [exact Nd|]. split; [|exact F]. intros i. rewrite Ii. apply (registered_alive mc _ _ _ _ i Hh).
  - destruct (cameras_ok mc (ap_players a') _ Hr) as (ids & Nd & Ii & F). exists ids. split; [exact Nd|]. split.
    + intros u. rewrite Ii. unfold user_of. pose proof (history_keys mc _ _ _ _ Hh) as K. pose proof (mget_None (st_users st) u) as M1. pose proof (mget_None (st_users (mg_state (ap_iter a'))) u) as M2. rewrite K in M2. tauto.
    + cbn [draw fr_boxes]. clear -F Hh. induction F as [|u c us cs (us' & Hu & Hc & _) _ IH]; constructor; [|exact IH]. rewrite Hc. apply (camera_last mc _ _ _ _ _ _ Hh Hu).
Qed.
(** The two panels. *)
Lemma viewer_panels : forall mc p init d b st t g f players size a ts frames z' k fr, starts init d b st -> bytes_ok t -> bytes_ok g ->
  new_app mc p (merge_start st t g f) players size = Ok a -> view mc p ts a = Ok (frames, z') -> nth_error frames k = Some fr ->
  exists evs items st' uids, run mc st evs = Ok (st', items) /\ (forall i, fr_event fr = Some i -> exists before, items = before ++ [i]) /\
    NoDup uids /\ (forall u, In u uids <-> user_of st u <> None) /\
    match uids with
    | [] => fr_first fr = [] /\ fr_second fr = []
    | [u] => selection_shows st' u (fr_first fr) /\ fr_second fr = []
    | u :: v :: _ => selection_shows st' u (fr_first fr) /\ selection_shows st' v (fr_second fr)
    end.
Proof.
  intros mc p init d b st t g f players size a ts frames z' k fr Hs Ht Hg En Ev Hk. apply new_opens in En as (z & ans & Ec & Ho & Hl & Pp & Ps & Hx).
  destruct (view_frames mc p _ _ _ _ _ z ans Ev Ec Hl _ _ Hk) as (n & a' & ans' & Pn & Ec' & Lc & Pp' & Ps' & ->).
  destruct (calls_history mc p _ _ _ _ (start_good st t g f Ht Hg) Ec') as (evs & items & R & L). cbn [merge_start mg_state] in R. exists evs, items, (mg_state (ap_iter a')), (map fst (st_users st)). split; [exact R|].
  assert (Hh : history mc st evs (mg_state (ap_iter a')) items) by (split; [eauto|exact R]). assert (Hw : wf (mg_state (ap_iter a'))) by (eapply reachable_wf; exists st, evs, items; exact Hh).
  destruct (starts_wf _ _ _ _ Hs) as ([Hd _] & _).
  split; [|split; [exact Hd|split]].
  - intros i E. cbn [draw fr_event] in E. rewrite <- Lc, E in L. cbn in L. destruct items as [|x items _] using rev_ind; [discriminate|]. rewrite map_app in L. cbn [map] in L. rewrite last_last in L. injection L as ->. eauto.
  - apply (keyed_listing _ _ Hd).
  - rewrite <- (history_keys mc _ _ _ _ Hh). cbn [draw fr_first fr_second]. set (st' := mg_state (ap_iter a')) in *.
    pose proof (panel_ok st' 0) as P0. pose proof (panel_ok st' 1) as P1. unfold selected_player_units in *. destruct (st_users st') as [|[u us] [|[v vs] l]]; cbn [map fst nth_error] in *.
    + auto.
    + split; [|reflexivity]. apply (P0 u us Hw eq_refl).
    + split; [apply (P0 u us Hw eq_refl)|apply (P1 v vs Hw eq_refl)].
Qed.

(** Colours. *)
Lemma color_found : forall players x u, In x players -> (forall y, In y players -> pd_slot y = pd_slot x -> y = x) -> pd_slot x = Some u -> 0 <= u <= 255 -> get_player_color players u = Some (rgb_of x).
Proof.
  intros players x u Hi Hd Hs Hu. unfold get_player_color. replace (as_u8 u) with u by (symmetry; apply Z.mod_small; lia).
  destruct (find _ players) as [y|] eqn:E.
  - apply find_some in E as [Hy Ey]. destruct (pd_slot y) as [s|] eqn:Es; [|discriminate]. apply Z.eqb_eq in Ey. subst s. assert (y = x) by (apply Hd; [exact Hy|congruence]). subst y. unfold rgb_of. destruct (pd_color x) as [[[q r] g] b]. reflexivity.
  - exfalso. pose proof (find_none _ _ E _ Hi) as Q. cbv beta in Q. rewrite Hs, Z.eqb_refl in Q. discriminate.
Qed.
Lemma start_player : forall init d b st uid us, starts init d b st -> user_of st uid = Some us -> In (ld_player (us_lobby us)) (de_players d).
Proof.
  intros init d b st uid us Hs Hu. destruct (start_user _ _ _ _ _ _ Hs Hu) as (l & ps & -> & _ & El & Hi). cbn [new_user us_lobby].
  apply (proj1 (filter_map_out_In _ _ _ _ _ l El)) in Hi as (x & Hx & E). unfold lobby_of in E. destruct (slot_loop _ _ _); [|discriminate]. destruct (nth_error _ _); [|discriminate]. injection E as <-. exact Hx.
Qed.
Lemma viewer_colors : forall mc p init d b st t g f size a ts frames z' k fr, starts init d b st -> bytes_ok t -> bytes_ok g ->
  new_app mc p (merge_start st t g f) (de_players d) size = Ok a -> view mc p ts a = Ok (frames, z') -> nth_error frames k = Some fr ->
  (forall x y, In x (de_players d) -> In y (de_players d) -> pd_slot x = pd_slot y -> x = y) ->
  let right u c := forall us, user_of st u = Some us -> pd_slot (ld_player (us_lobby us)) = Some u -> 0 <= u <= 255 -> c = Some (rgb_of (ld_player (us_lobby us))) in
  (exists uids, NoDup uids /\ (forall u, In u uids <-> user_of st u <> None) /\ Forall2 (fun u c => right u (bx_color c)) uids (fr_boxes fr)) /\
  (forall i l u n e, fr_event fr = Some i -> it_event i = EGame l u n e -> exists c, fr_name_color fr = Some c /\ right u c).
Proof.
  intros mc p init d b st t g f size a ts frames z' k fr Hs Ht Hg En Ev Hk Hd right. apply new_opens in En as (z & ans & Ec & Ho & Hl & Pp & Ps & Hx).
  destruct (view_frames mc p _ _ _ _ _ z ans Ev Ec Hl _ _ Hk) as (n & a' & ans' & Pn & Ec' & Lc & Pp' & Ps' & ->).
  destruct (calls_history mc p _ _ _ _ (start_good st t g f Ht Hg) Ec') as (evs & items & R & L). cbn [merge_start mg_state] in R.
  assert (Hh : history mc st evs (mg_state (ap_iter a')) items) by (split; [eauto|exact R]). assert (Hr : reachable mc (mg_state (ap_iter a'))) by (exists st, evs, items; exact Hh).
  assert (Q : forall u, right u (get_player_color (de_players d) u)).
  { intros u us Hu Hsl Hb. apply color_found; [eapply start_player; eauto| |exact Hsl|exact Hb]. intros y Hy E. apply Hd; [exact Hy|eapply start_player; eauto|exact E]. }
  rewrite Pp in Pp'. cbn [draw fr_boxes fr_event fr_name_color]. rewrite Pp'. split.
  - destruct (cameras_ok mc (de_players d) _ Hr) as (ids & Nd & Ii & F). exists ids. split; [exact Nd|]. split.
    + intros u. rewrite Ii. unfold user_of. pose proof (history_keys mc _ _ _ _ Hh) as K. pose proof (mget_None (st_users st) u) as M1. pose proof (mget_None (st_users (mg_state (ap_iter a'))) u) as M2. rewrite K in M2. tauto.
    + clear -F Q. induction F as [|u c us cs (us' & _ & _ & Hc) _ IH]; constructor; [rewrite Hc; apply Q|exact IH].
  - intros i l u nm e E Ee. rewrite E. cbn [name_color]. rewrite Ee. eexists. split; [reflexivity|apply Q].
Qed.

(** ** The details pane *)
Lemma first_color : forall before x after s, pd_slot x = Some s -> 0 <= s <= 255 -> Forall (fun y => pd_slot y <> Some s) before -> get_player_color (before ++ x :: after) s = Some (rgb_of x).
Proof.
  intros before x after s Hs Hb Hf. unfold get_player_color. replace (as_u8 s) with s by (symmetry; apply Z.mod_small; lia).
  assert (E : find (fun x => match pd_slot x with Some s0 => s0 =? s | None => false end) (before ++ x :: after) = Some x).
  { induction Hf as [|y l Hy _ IH]; cbn [app find]; [now rewrite Hs, Z.eqb_refl|]. destruct (pd_slot y) as [s'|]; [|exact IH]. destruct (Z.eqb_spec s' s) as [->|]; [congruence|exact IH]. }
  rewrite E. unfold rgb_of. destruct (pd_color x) as [[[q r] g] b]. reflexivity.
Qed.
Lemma pane_ok : forall xs before, Forall (fun x => forall s, pd_slot x = Some s -> 0 <= s <= 255) xs ->
  pane_shows before xs (flat_map (fun x => match pd_slot x with
    | Some s => [mk_lines (to_region (pd_toon x), to_realm (pd_toon x), to_id (pd_toon x)) (pd_name x) s (pd_race x) (pd_result x) (get_player_color (before ++ xs) s)]
    | None => []
    end) xs).
Proof.
  induction xs as [|x xs IH]; intros before Hb; cbn [flat_map]; [constructor|]. inversion Hb as [|? ? Hx Hb']; subst.
  specialize (IH (before ++ [x]) Hb'). rewrite <- app_assoc in IH. cbn [app] in IH.
  destruct (pd_slot x) as [s|] eqn:Es; cbn [app]; [|apply ps_none; assumption]. eapply ps_slot; [exact Es|repeat split| |exact IH].
  intros Hf. cbn [pl_color]. apply first_color; auto.
Qed.
Lemma viewer_details : forall mc p it players size a ts frames z' k fr, new_app mc p it players size = Ok a -> view mc p ts a = Ok (frames, z') -> nth_error frames k = Some fr ->
  Forall (fun x => forall s, pd_slot x = Some s -> 0 <= s <= 255) players -> pane_shows [] players (fr_details fr) /\ fr_size fr = size.
Proof.
  intros mc p it players size a ts frames z' k fr En Ev Hk Hb. apply new_opens in En as (z & ans & Ec & Ho & Hl & Pp & Ps & Hx).
  destruct (view_frames mc p _ _ _ _ _ z ans Ev Ec Hl _ _ Hk) as (n & a' & ans' & Pn & Ec' & Lc & Pp' & Ps' & ->).
  cbn [draw fr_details fr_size]. rewrite Pp', Pp. split; [|congruence]. exact (pane_ok players [] Hb).
Qed.
