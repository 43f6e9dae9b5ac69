(** * Facts about exports and statistics *)
From Coq Require Import Sorted Permutation.
From Verif Require Import Base Types Tags BitSpec BitProofs Dispatch Events Stream StreamFacts Iterators StreamSpec IteratorFacts IteratorStreams Balance Lobby DetailsData DetailsSpec State StateSpec Merge MergeSpec MergeFacts ConvertSpec Rows RowSpec RowFacts Files Archive ArchiveSpec ArchiveFacts.
From Verif Require Import Convert.
#[local] Open Scope string_scope.
#[local] Open Scope Z_scope.
#[local] Open Scope list_scope.

(** ** Iterating does not fail, it ends or panics *)
Definition no_err {A} (x : outcome A) : Prop := forall e, x <> Err e.
Lemma no_err_ok : forall A (a : A), no_err (Ok a). Proof. discriminate. Qed.
Lemma no_err_panic : forall A, no_err (@Panic A). Proof. discriminate. Qed.
Lemma no_err_bind : forall A B (x : outcome A) (f : A -> outcome B), no_err x -> (forall a, x = Ok a -> no_err (f a)) -> no_err (obind x f).
Proof. intros A B [a|e|] f Hx Hf; cbn [obind]; [auto|destruct (Hx e eq_refl)|discriminate]. Qed.
Lemma get_no_err : forall gs i, no_err (group_get gs i). Proof. intros. unfold group_get. destruct (nth_error _ _); discriminate. Qed.
Lemma set_no_err : forall gs i g, no_err (group_set gs i g). Proof. intros. unfold group_set. destruct (nth_error _ _); discriminate. Qed.
Lemma loop_no_err : forall f idxs gs, no_err (groups_loop f idxs gs).
Proof. intros f. induction idxs as [|i idxs IH]; intros gs; cbn [groups_loop]; [discriminate|]. apply no_err_bind; [apply get_no_err|]. intros g _. apply no_err_bind; [apply set_no_err|]. auto. Qed.
Lemma active_no_err : forall st u, no_err (active_units st u).
Proof. intros. unfold active_units. destruct (Maps.mget u (st_users st)); [apply get_no_err|discriminate]. Qed.
Lemma change_no_err : forall st u f, (forall gs, no_err (f gs)) -> no_err (change_groups st u f).
Proof. intros st u f Hf. unfold change_groups. destruct (Maps.mget u (st_users st)); [|discriminate]. apply no_err_bind; [apply Hf|]. discriminate. Qed.
Lemma append_no_err : forall gs i s, no_err (append_group gs i s).
Proof. intros. unfold append_group. apply no_err_bind; [apply get_no_err|]. intros. apply set_no_err. Qed.
Lemma ovf_no_err : forall m z, no_err (ovf_i32 m z).
Proof. intros. unfold ovf_i32. destruct m; repeat match goal with |- no_err (if ?b then _ else _) => destruct b end; discriminate. Qed.
Lemma positions_no_err : forall m items u, no_err (positions_loop m u items).
Proof.
  intros m. fix IH 1. intros [|a [|b [|c items]]] u; cbn [positions_loop]; try discriminate.
  apply no_err_bind; [apply ovf_no_err|]. intros. repeat (apply no_err_bind; [first [apply ovf_no_err|apply IH]|intros]). apply no_err_ok.
Qed.
Lemma map_no_err : forall A B (f : A -> outcome B) l, (forall a, no_err (f a)) -> no_err (map_out f l).
Proof. intros A B f l Hf. induction l as [|a l IH]; cbn [map_out]; [discriminate|]. apply no_err_bind; [apply Hf|]. intros b _. apply no_err_bind; [exact IH|]. discriminate. Qed.
Ltac ne := repeat first
  [ apply no_err_ok | apply active_no_err | apply get_no_err | apply set_no_err | apply loop_no_err | apply append_no_err
  | apply change_no_err; intro | apply no_err_bind; [|intros ? _]
  | match goal with |- no_err (let '(_, _) := ?x in _) => destruct x end
  | match goal with |- no_err (match ?x with _ => _ end) => destruct x end ].
Lemma transition_no_err : forall mc st e, no_err (handle_transition mc st e).
Proof.
  intros mc st [l e|l u n e]; cbn [handle_transition]; apply no_err_bind; try (intros [s [x h]] _; discriminate).
  - destruct e; cbn [handle_tracker_event]; try discriminate.
    + unfold handle_unit_died. apply no_err_bind; [apply map_no_err; intros a; unfold retain_user; ne|]. intros us _. ne.
    + unfold handle_unit_position. apply no_err_bind; [unfold to_unit_positions_vec; apply positions_no_err|]. intros l' _. ne.
  - destruct e; cbn [handle_game_event]; try discriminate.
    + unfold handle_cmd. ne.
    + unfold handle_selection_delta, unmark_previously_selected_units. ne.
    + unfold update_control_group, unmark_previously_selected_units, steal. ne.
    + unfold handle_update_target_point. ne.
    + unfold handle_update_target_unit. ne.
Qed.
Lemma tracker_no_err : forall m p s, bytes_ok (fst s) -> no_err (tracker_next m p s).
Proof. intros m p [l n] Hl. unfold no_err. exact (next_returns bytes_end (@length Z) _ tracker_from bytes_ok (fun c c' d x => pair_good m p c c' d x) (pair_nu m p) l n Hl). Qed.
Lemma advance_no_err : forall mc p it, good it -> no_err (advance mc p it).
Proof.
  intros mc p it [Ht Hg]. unfold advance. apply no_err_bind.
  - unfold fill_tracker. destruct (mg_next_tracker it); [discriminate|]. apply no_err_bind; [now apply tracker_no_err|]. intros [x s] _. discriminate.
  - intros it1 E. assert (Hg1 : aligned (fst (mg_game it1))).
    { unfold fill_tracker in E. destruct (mg_next_tracker it); [injection E as <-; exact Hg|]. apply obind_ok in E as ([x s] & _ & E). injection E as <-. exact Hg. }
    apply no_err_bind; [|discriminate]. unfold fill_game. destruct (mg_next_game it1); [discriminate|].
    destruct (game_never_fails mc p (player_names (mg_state it1)) (mg_game it1) Hg1) as (r & s & Er). rewrite Er. discriminate.
Qed.
Lemma merge_no_err : forall mc p n it, (left_over it <= n)%nat -> good it -> no_err (merge_next mc p it).
Proof.
  intros mc p. induction n as [n IH] using lt_wf_ind. intros it Hn Hg. rewrite (merge_unfold mc p it Hg). unfold round. apply no_err_bind; [now apply advance_no_err|].
  intros [o it1] Ea. destruct (advance_facts mc p _ _ _ Hg Ea) as (Hg1 & Hl & _ & _). destruct o as [e|]; [|discriminate]. cbn [pending] in Hl.
  apply no_err_bind; [apply transition_no_err|]. intros [st i] _. cbv zeta. destruct (mg_filters (with_state st it1)) as [f|]; [|discriminate].
  destruct (skip_event f (it_event i)); [|destruct (max_reached (decrease_allowed f)); discriminate].
  apply (IH (left_over it1)); [lia|unfold left_over; cbn; lia|exact Hg1].
Qed.
Lemma merge_left : forall mc p it i it', good it -> merge_next mc p it = Ok (Some i, it') -> (left_over it' < left_over it)%nat.
Proof.
  intros mc p it i it' Hg E. assert (G : forall r, r = Some i -> merge_next mc p it = Ok (r, it') -> (left_over it' < left_over it)%nat); [|eauto].
  clear E. intros r Er E. revert Er.
  refine (merge_next_ind mc p (fun it r it' => r = Some i -> (left_over it' < left_over it)%nat) _ _ _ _ it r it' Hg E); clear.
  - discriminate.
  - intros it e it1 st j Hg Ea _ _ _. destruct (advance_facts mc p _ _ _ Hg Ea) as (_ & Hl & _). cbn [pending] in Hl. unfold left_over in *. cbn. lia.
  - intros it e it1 st j f Hg Ea _ _ _ _. destruct (advance_facts mc p _ _ _ Hg Ea) as (_ & Hl & _). cbn [pending] in Hl. unfold left_over in *. cbn. lia.
  - intros it e it1 st j f r it2 Hg Ea _ _ _ Hr Er. specialize (Hr Er). destruct (advance_facts mc p _ _ _ Hg Ea) as (_ & Hl & _). cbn [pending] in Hl. unfold left_over in *. cbn in Hr |- *. lia.
Qed.
Lemma collect_no_err : forall mc p it, good it -> no_err (collect mc p it).
Proof.
  intros mc p it Hg. unfold collect. assert (G : forall n it, good it -> (left_over it < n)%nat -> no_err (collect_fuel mc p n it)); [|apply G; [exact Hg|lia]].
  clear. induction n as [|n IH]; intros it Hg Hn; [lia|]. cbn [collect_fuel]. apply no_err_bind; [now apply (merge_no_err mc p (left_over it))|].
  intros [r it'] E. destruct r as [i|]; [|discriminate]. apply no_err_bind; [|discriminate]. apply IH; [eapply next_good; eauto|]. pose proof (merge_left mc p _ _ _ Hg E). lia.
Qed.
Lemma table_no_err : forall A mc p (rows : item -> list A) it, good it -> no_err (table mc p rows it).
Proof. intros. unfold table. apply no_err_bind; [now apply collect_no_err|]. discriminate. Qed.

(** ** Opening a source *)
Lemma open_file_eq : forall w n a, n <> "" -> w n = Ok a -> open_file w n = Ok a.
Proof. intros w n a Hn Ea. unfold open_file. destruct (String.eqb_spec n ""); [congruence|exact Ea]. Qed.
Lemma iterator_new_opens : forall m w all d it, iterator_new m w d all = Ok it <-> exists st t g, opens m w all d st t g /\ it = merge_start st t g None.
Proof.
  intros m w all d it. unfold iterator_new, state_try_from, lobby_try_from, details_try_from. split.
  - intros E. apply obind_ok in E as (a & Ea & E). apply obind_ok in E as (t & Et & E). apply obind_ok in E as (g & Eg & E). apply obind_ok in E as (st & Es & E). injection E as <-.
    rewrite Ea in Es. cbn [obind] in Es. apply obind_ok in Es as (x & Ex & Es). apply obind_ok in Es as (ps & Ep & Es). rewrite Ex in Ep. cbn [obind] in Ep.
    apply open_file_ok in Ea as [Ea Hn]. exists st, t, g. split; [|reflexivity]. exists a, x. unfold initial_state. rewrite Ep. cbn [obind]. injection Es as <-. repeat split; auto.
  - intros (st & t & g & (a & x & Hn & Ea & Et & Eg & Ex & Es) & ->). rewrite (open_file_eq _ _ _ Hn Ea). cbn [obind]. rewrite Et. cbn [obind]. rewrite Eg. cbn [obind]. rewrite Ex. cbn [obind].
    unfold initial_state in Es. apply obind_ok in Es as (ps & Ep & Es). rewrite Ep. cbn [obind]. injection Es as <-. reflexivity.
Qed.
Lemma opens_good : forall m w all d st t g, world_bytes w -> opens m w all d st t g -> good (merge_start st t g None).
Proof.
  intros m w all d st t g Hw (a & x & _ & Ea & Et & Eg & _). destruct (Hw _ _ Ea) as [_ Hb]. split; cbn; [exact (Hb _ _ Et)|].
  split; [|reflexivity]. cbn. split; [exact (Hb _ _ Eg)|]. split; cbn; [lia|congruence].
Qed.
Section Source.
  Variables (A : Type) (mc : machine) (w : world) (all : all_balance) (rows : Z -> item -> list A).
  Hypothesis Hw : world_bytes w.
  Lemma source_rows_ok : forall d o, source_rows mc w all rows d = Ok o -> source_table mc w all rows d match o with Some l => l | None => [] end.
  Proof.
    intros d o E. unfold source_rows in E. destruct (iterator_new (mc_build mc) w d all) as [it|e|] eqn:Ei.
    - apply iterator_new_opens in Ei as (st & t & g & Ho & ->). apply obind_ok in E as (l & El & E). injection E as <-. left. exists st, t, g. auto.
    - injection E as <-. right. split; [|reflexivity]. intros st t g Ho. assert (Q : iterator_new (mc_build mc) w d all = Ok (merge_start st t g None)) by (apply iterator_new_opens; eauto). congruence.
    - discriminate.
  Qed.
  Lemma source_rows_no_err : forall d, no_err (source_rows mc w all rows d).
  Proof.
    intros d. unfold source_rows. destruct (iterator_new (mc_build mc) w d all) as [it|e|] eqn:Ei; [|discriminate|discriminate].
    apply no_err_bind; [|discriminate]. apply iterator_new_opens in Ei as (st & t & g & Ho & ->). apply table_no_err. eapply opens_good; eauto.
  Qed.
  Lemma batches_ok : forall l o bs, batches (source_rows mc w all rows) l = (o, bs) -> o <> Panic ->
    o = Ok tt /\ exists per, Forall2 (source_table mc w all rows) l per /\ bs = filter has_rows per.
  Proof.
    induction l as [|d l IH]; intros o bs E Ho; cbn [batches] in E.
    - injection E as <- <-. split; [reflexivity|]. exists []. split; [constructor|reflexivity].
    - pose proof (source_rows_ok d) as K. pose proof (source_rows_no_err d) as N. destruct (source_rows mc w all rows d) as [[[|r b]|]|e|].
      + destruct (IH _ _ E Ho) as (E1 & per & F & ->). split; [exact E1|]. exists ([] :: per). split; [constructor; [exact (K _ eq_refl)|exact F]|reflexivity].
      + destruct (batches (source_rows mc w all rows) l) as [o' bs'] eqn:Eb. injection E as <- <-. destruct (IH _ _ eq_refl Ho) as (E1 & per & F & ->). split; [exact E1|].
        exists ((r :: b) :: per). split; [constructor; [exact (K _ eq_refl)|exact F]|reflexivity].
      + destruct (IH _ _ E Ho) as (E1 & per & F & ->). split; [exact E1|]. exists ([] :: per). split; [constructor; [exact (K _ eq_refl)|exact F]|reflexivity].
      + destruct (N e eq_refl).
      + congruence.
  Qed.
  Lemma source_table_fun : forall d l l', source_table mc w all rows d l -> source_table mc w all rows d l' -> l = l'.
  Proof.
    intros d l l' [(st & t & g & Ho & El)|[Hn ->]] [(st' & t' & g' & Ho' & El')|[Hn' ->]]; [|destruct (Hn' _ _ _ Ho)|destruct (Hn _ _ _ Ho')|reflexivity].
    assert (Q : iterator_new (mc_build mc) w d all = Ok (merge_start st t g None)) by (apply iterator_new_opens; eauto).
    assert (Q' : iterator_new (mc_build mc) w d all = Ok (merge_start st' t' g' None)) by (apply iterator_new_opens; eauto).
    assert (R : merge_start st t g None = merge_start st' t' g' None) by congruence. rewrite <- R in El'. congruence.
  Qed.
  Lemma per_permutation : forall l l' per per', Permutation l l' -> Forall2 (source_table mc w all rows) l per -> Forall2 (source_table mc w all rows) l' per' -> Permutation per per'.
  Proof.
    intros l l' per per' Hp. revert per per'. induction Hp as [|d l l' Hp IH|d e l|l1 l2 l3 P1 IH1 _ IH2]; intros per per' F F'.
    - inversion F; inversion F'; subst. constructor.
    - inversion F as [|? x ? p Hx Fp]; inversion F' as [|? x' ? p' Hx' Fp']; subst. rewrite (source_table_fun _ _ _ Hx Hx'). constructor. auto.
    - inversion F as [|? x ? p Hx Fp]; subst. inversion Fp as [|? y ? q Hy Fq]; subst. inversion F' as [|? x' ? p' Hx' Fp']; subst. inversion Fp' as [|? y' ? q' Hy' Fq']; subst.
      rewrite (source_table_fun _ _ _ Hx Hy'), (source_table_fun _ _ _ Hy Hx'). replace q' with q; [constructor|].
      clear - Fq Fq' Hw. revert q' Fq'. induction Fq as [|a b l q Hab Fq IH]; intros q' Fq'; inversion Fq' as [|? b' ? r Hab' Fr]; subst; [reflexivity|]. f_equal; [exact (source_table_fun _ _ _ Hab Hab')|auto].
    - assert (Q : exists per2, Forall2 (source_table mc w all rows) l2 per2).
      { assert (K : Forall (fun d => exists x, source_table mc w all rows d x) l1) by (clear - F; induction F; constructor; eauto).
        assert (K3 : Forall (fun d => exists x, source_table mc w all rows d x) l2) by (rewrite Forall_forall in *; intros d Hd; apply K; eapply Permutation_in; [symmetry; exact P1|exact Hd]).
        clear - K3. induction K3 as [|d l (x & Hx) _ (p & Fp)]; [exists []; constructor|]. exists (x :: p). constructor; assumption. }
      destruct Q as (per2 & Q). exact (perm_trans (IH1 _ _ F Q) (IH2 _ _ Q F')).
  Qed.
End Source.

(** ** Lobby rows *)
Lemma map_out_ok : forall A B (f : A -> outcome B) l r, map_out f l = Ok r -> Forall2 (fun a b => f a = Ok b) l r.
Proof.
  intros A B f. induction l as [|a l IH]; intros r E; cbn [map_out] in E; [injection E as <-; constructor|].
  apply obind_ok in E as (b & Eb & E). apply obind_ok in E as (bs & Es & E). injection E as <-. constructor; auto.
Qed.
Lemma filter_map_no_err : forall A B (f : A -> outcome (option B)) l, (forall a, no_err (f a)) -> no_err (filter_map_out f l).
Proof. intros A B f l Hf. induction l as [|a l IH]; cbn [filter_map_out]; [discriminate|]. apply no_err_bind; [apply Hf|]. intros b _. apply no_err_bind; [exact IH|]. discriminate. Qed.
Lemma lobby_no_err : forall i d, no_err (lobby_details_of i d).
Proof. intros i d. apply filter_map_no_err. intros p. unfold lobby_of. destruct (slot_loop 0 p (id_slots i)) as [k|]; [|discriminate]. destruct (nth_error (id_slots i) k); discriminate. Qed.
Lemma details_rows_ok : forall m w d l, details_rows m w d = Ok l -> source_lobby m w d l.
Proof.
  intros m w d l E. unfold details_rows, lobby_try_from, details_try_from in E.
  destruct (open_file w (xi_file_name d)) as [a|e|] eqn:Ea; cbn [obind] in E; [| |discriminate].
  - apply open_file_ok in Ea as [Ea Hn]. destruct (file_details m (xi_fs_id d) a) as [x|e|] eqn:Ex; cbn [obind] in E; [| |discriminate].
    + destruct (lobby_details_of (joined_init d) (joined_details x)) as [ps|e|] eqn:Ep; [|destruct (lobby_no_err _ _ _ Ep)|discriminate].
      left. exists a, x, ps. split; [exact Hn|]. split; [exact Ea|]. split; [exact Ex|]. split; [exact Ep|]. now apply map_out_ok.
    + injection E as <-. right. split; [|reflexivity]. right. right. eauto.
  - injection E as <-. right. split; [|reflexivity]. unfold open_file in Ea. destruct (String.eqb_spec (xi_file_name d) ""); [now left|]. right. left. eauto.
Qed.

(** ** Snapshots *)
Lemma write_table_ok : forall mc w all ok order sources n fs, world_bytes w -> write_table mc w all ok order sources n = (Ok tt, fs) ->
  exists c, fs = [mk_arrow (table_file n) c true] /\ content_of mc w all (if match n with TDetails => true | _ => false end then sources else order n sources) n c.
Proof.
  intros mc w all ok order sources n fs Hw E. unfold write_table in E. destruct n; cbv zeta in E.
  { destruct (all_details_rows (mc_build mc) w sources) as [rows|e|] eqn:Er; [|discriminate|discriminate]. destruct (ok (table_file TDetails)); [|discriminate]. injection E as <-.
    eexists. split; [reflexivity|]. unfold all_details_rows in Er. apply obind_ok in Er as (ls & El & Er). injection Er as <-. apply map_out_ok in El. apply of_details.
    eapply VersionedEncode.Forall2_impl'; [|exact El]. intros d l. apply details_rows_ok. }
  all: match type of E with (if ?b then _ else _) = _ => destruct b; [|discriminate] end; unfold file_of in E;
    match type of E with context [batches ?f ?l] => destruct (batches f l) as [o bs] eqn:Eb end; cbn [fst snd] in E; injection E as -> <-;
    destruct (batches_ok _ mc w all _ Hw _ _ _ Eb ltac:(discriminate)) as (_ & per & F & ->); eexists; (split; [reflexivity|]); now constructor.
Qed.
Lemma write_tables_ok : forall write l fs, write_tables write l = (Ok tt, fs) -> exists fss, Forall2 (fun n f => write n = (Ok tt, f)) l fss /\ fs = concat fss.
Proof.
  intros write. induction l as [|n l IH]; intros fs E; cbn [write_tables] in E; [injection E as <-; exists []; split; [constructor|reflexivity]|].
  destruct (write n) as [o f] eqn:Ew. destruct o as [[]|e|]; [|discriminate|discriminate]. destruct (write_tables write l) as [o' fs'] eqn:Et. injection E as -> <-.
  destruct (IH fs' eq_refl) as (fss & F & ->). exists (f :: fss). split; [constructor; assumption|reflexivity].
Qed.
Lemma snapshot_ok : forall mc w all dir ok order sources fs, world_bytes w -> write_snapshot mc w all dir ok order sources = (Ok tt, fs) ->
  Forall2 (fun n f => exists c, f = mk_arrow (table_file n) c true /\ content_of mc w all (if match n with TDetails => true | _ => false end then sources else order n sources) n c) all_tables fs.
Proof.
  intros mc w all dir ok order sources fs Hw E. unfold write_snapshot in E. destruct dir; [|discriminate]. apply write_tables_ok in E as (fss & F & ->).
  induction F as [|n f l fss Ef F IH]; [constructor|]. destruct (write_table_ok _ _ _ _ _ _ _ _ Hw Ef) as (c & -> & Hc). cbn [concat app]. constructor; [exists c; auto|exact IH].
Qed.
Lemma filter_permutation : forall A (f : A -> bool) l l', Permutation l l' -> Permutation (filter f l) (filter f l').
Proof.
  intros A f. induction 1 as [|a l l' _ IH|a b l|l1 l2 l3 _ IH1 _ IH2]; cbn [filter]; [constructor| | |exact (perm_trans IH1 IH2)].
  - destruct (f a); [now constructor|exact IH].
  - destruct (f a), (f b); try apply Permutation_refl. apply perm_swap.
Qed.
Lemma content_permutation : forall mc w all l l' n c c', n <> TDetails -> Permutation l l' -> content_of mc w all l n c -> content_of mc w all l' n c' -> same_batches c c'.
Proof.
  intros mc w all l l' n c c' Hn Hp Hc Hc'. destruct Hc; [congruence|..]; inversion Hc' as [ | | | | | | ]; subst; constructor; apply filter_permutation; eapply per_permutation; eassumption.
Qed.
(** How far an export comes. *)
Lemma write_table_stops : forall mc w all ok order sources n o fs, world_bytes w -> write_table mc w all ok order sources n = (o, fs) -> o <> Ok tt ->
  fs = [] \/ (n <> TDetails /\ o = Panic /\ exists c, fs = [mk_arrow (table_file n) c false]).
Proof.
  intros mc w all ok order sources n o fs Hw E Ho. unfold write_table in E. destruct n; cbv zeta in E.
  { destruct (all_details_rows (mc_build mc) w sources) as [rows|e|]; [|injection E as <- <-; now left|injection E as <- <-; now left]. destruct (ok (table_file TDetails)); injection E as <- <-; [congruence|now left]. }
  all: match type of E with (if ?b then _ else _) = _ => destruct b; [|injection E as <- <-; now left] end; unfold file_of in E;
    match type of E with context [batches ?f ?l] => destruct (batches f l) as [o' bs] eqn:Eb end; cbn [fst snd] in E; injection E as <- <-; right; (split; [discriminate|]);
    pose proof (batches_ok _ mc w all _ Hw _ _ _ Eb) as K; destruct o' as [[]|e|]; [congruence|destruct (K ltac:(discriminate)) as [Q _]; discriminate|]; (split; [reflexivity|]); eexists; reflexivity.
Qed.
Lemma write_tables_stops : forall mc w all ok order sources l o fs, world_bytes w -> write_tables (write_table mc w all ok order sources) l = (o, fs) -> o <> Ok tt ->
  exists k done, (k < length l)%nat /\ map af_name done = map table_file (firstn k l) /\ Forall (fun f => af_finished f = true) done /\
    (fs = done \/ exists n c, nth_error l k = Some n /\ n <> TDetails /\ o = Panic /\ fs = done ++ [mk_arrow (table_file n) c false]).
Proof.
  intros mc w all ok order sources l. induction l as [|n l IH]; intros o fs Hw E Ho; cbn [write_tables] in E; [congruence|].
  destruct (write_table mc w all ok order sources n) as [o1 fs1] eqn:Ew. destruct o1 as [[]|e|].
  - destruct (write_tables (write_table mc w all ok order sources) l) as [o' fs'] eqn:Et. injection E as -> <-. destruct (IH _ _ Hw eq_refl Ho) as (k & done & Hk & Hd & Hf & Hr).
    destruct (write_table_ok _ _ _ _ _ _ _ _ Hw Ew) as (c & -> & _). exists (Datatypes.S k), (mk_arrow (table_file n) c true :: done). cbn [length firstn map app]. split; [lia|].
    split; [now rewrite Hd|]. split; [constructor; [reflexivity|exact Hf]|]. destruct Hr as [->|(n' & c' & En & Hn & Hp & ->)]; [now left|]. right. exists n', c'. auto.
  - injection E as <- <-. exists O, []. split; [cbn [length]; lia|]. split; [reflexivity|]. split; [constructor|]. destruct (write_table_stops _ _ _ _ _ _ _ _ _ Hw Ew Ho) as [->|(_ & Q & _)]; [now left|discriminate].
  - injection E as <- <-. exists O, []. split; [cbn [length]; lia|]. split; [reflexivity|]. split; [constructor|]. destruct (write_table_stops _ _ _ _ _ _ _ _ _ Hw Ew Ho) as [->|(Hn & _ & c & ->)]; [now left|]. right. exists n, c. auto.
Qed.
(** How far an export comes, with what the finished files hold. *)
Lemma tables_stop : forall mc w all ok order sources l o fs, world_bytes w -> write_tables (write_table mc w all ok order sources) l = (o, fs) -> o <> Ok tt ->
  exists k done rest, (k < length l)%nat /\ fs = done ++ rest /\
    Forall2 (fun n f => exists c, f = mk_arrow (table_file n) c true /\ content_of mc w all (if match n with TDetails => true | _ => false end then sources else order n sources) n c) (firstn k l) done /\
    (rest = [] \/ exists n c, nth_error l k = Some n /\ n <> TDetails /\ o = Panic /\ rest = [mk_arrow (table_file n) c false]).
Proof.
  intros mc w all ok order sources l. induction l as [|n l IH]; intros o fs Hw E Ho; cbn [write_tables] in E; [congruence|].
  destruct (write_table mc w all ok order sources n) as [o1 fs1] eqn:Ew. destruct o1 as [[]|e|].
  - destruct (write_tables (write_table mc w all ok order sources) l) as [o' fs'] eqn:Et. injection E as -> <-. destruct (IH _ _ Hw eq_refl Ho) as (k & done & rest & Hk & -> & Hd & Hr).
    destruct (write_table_ok _ _ _ _ _ _ _ _ Hw Ew) as (c & -> & Hc). exists (Datatypes.S k), (mk_arrow (table_file n) c true :: done), rest. cbn [length firstn app nth_error]. split; [lia|].
    split; [reflexivity|]. split; [constructor; [eauto|exact Hd]|exact Hr].
  - injection E as <- <-. exists O, [], fs1. split; [cbn [length]; lia|]. split; [reflexivity|]. split; [constructor|]. destruct (write_table_stops _ _ _ _ _ _ _ _ _ Hw Ew Ho) as [->|(_ & Q & _)]; [now left|discriminate].
  - injection E as <- <-. exists O, [], fs1. split; [cbn [length]; lia|]. split; [reflexivity|]. split; [constructor|]. destruct (write_table_stops _ _ _ _ _ _ _ _ _ Hw Ew Ho) as [->|(Hn & _ & c & ->)]; [now left|]. right. exists n, c. auto.
Qed.
(** ** Statistics of a whole export *)
Lemma opens_starts : forall m w all d st t g, opens m w all d st t g -> exists x, starts (joined_init d) (joined_details x) (balance_of_version (xi_version d) all) st.
Proof. intros m w all d st t g (a & x & _ & _ & _ & _ & _ & Es). exists x. exists st. split; [exact Es|]. split; [reflexivity|]. split; [reflexivity|]. apply Permutation_refl. Qed.
Lemma source_stats : forall mc w all d st t g tevs gevs l, opens (mc_build mc) w all d st t g -> sectors_of mc (iterator_proto d) tevs t gevs g ->
  source_table mc w all stats_of_item d l -> Forall2 (stats_spec (xi_fs_id d)) (filter (fun ev => String.eqb (variant (snd ev)) "EPlayerStats") (at_loops 0 tevs)) l.
Proof.
  intros mc w all d st t g tevs gevs l Ho Hs [(st' & t' & g' & Ho' & El)|[Hn _]]; [|destruct (Hn _ _ _ Ho)].
  assert (Q : iterator_new (mc_build mc) w d all = Ok (merge_start st t g None)) by (apply iterator_new_opens; eauto).
  assert (Q' : iterator_new (mc_build mc) w d all = Ok (merge_start st' t' g' None)) by (apply iterator_new_opens; eauto).
  assert (R : merge_start st t g None = merge_start st' t' g' None) by congruence. rewrite <- R in El. destruct (opens_starts _ _ _ _ _ _ _ Ho) as (x & Hx).
  exact (stats_table_ok mc (iterator_proto d) (xi_fs_id d) _ _ _ st tevs t gevs g l Hx Hs El).
Qed.
Lemma Forall2_find : forall A B (R : A -> B -> Prop) l l' a, Forall2 R l l' -> In a l -> exists b, In b l' /\ R a b.
Proof. intros A B R l l' a F. induction F as [|x y l l' Hxy _ IH]; intros Hi; [destruct Hi|]. destruct Hi as [->|Hi]; [exists y; split; [now left|exact Hxy]|]. destruct (IH Hi) as (b & Hb & Hr). exists b. split; [now right|exact Hr]. Qed.
Lemma Forall2_find_r : forall A B (R : A -> B -> Prop) l l' b, Forall2 R l l' -> In b l' -> exists a, In a l /\ R a b.
Proof. intros A B R l l' b F. induction F as [|x y l l' Hxy _ IH]; intros Hi; [destruct Hi|]. destruct Hi as [->|Hi]; [exists x; split; [now left|exact Hxy]|]. destruct (IH Hi) as (a & Ha & Hr). exists a. split; [now right|exact Hr]. Qed.
Lemma snapshot_stats : forall mc w all dir ok order sources fs, world_bytes w -> any_order order -> write_snapshot mc w all dir ok order sources = (Ok tt, fs) ->
  exists batches, In (mk_arrow "stats.arrow" (CStats batches) true) fs /\
    (forall b, In b batches -> exists d, In d sources /\ source_table mc w all stats_of_item d b) /\
    forall d st t g tevs gevs, In d sources -> opens (mc_build mc) w all d st t g -> sectors_of mc (iterator_proto d) tevs t gevs g ->
      let events := filter (fun ev => String.eqb (variant (snd ev)) "EPlayerStats") (at_loops 0 tevs) in
      events = [] \/ exists b, In b batches /\ Forall2 (stats_spec (xi_fs_id d)) events b.
Proof.
  intros mc w all dir ok order sources fs Hw Ho E. pose proof (snapshot_ok _ _ _ _ _ _ _ _ Hw E) as F. destruct (Forall2_find _ _ _ _ _ TStats F ltac:(cbn; tauto)) as (f & Hf & c & -> & Hc).
  inversion Hc as [|per Fp E1 E2| | | | |]; subst. exists (filter has_rows per). split; [exact Hf|]. split.
  - intros b Hb. apply filter_In in Hb as [Hb _]. destruct (Forall2_find_r _ _ _ _ _ b Fp Hb) as (d & Hd & Hs). exists d. split; [|exact Hs]. eapply Permutation_in; [symmetry; apply Ho|exact Hd].
  - intros d st t g tevs gevs Hd Hop Hse. cbv zeta. assert (Hd' : In d (order TStats sources)) by (eapply Permutation_in; [apply Ho|exact Hd]). destruct (Forall2_find _ _ _ _ _ d Fp Hd') as (b & Hb & Hs).
    pose proof (source_stats _ _ _ _ _ _ _ _ _ _ Hop Hse Hs) as K. destruct b as [|r b]; [left; now inversion K|]. right. exists (r :: b). split; [apply filter_In; auto|exact K].
Qed.
(** ** The balance data of a version *)
Lemma balance_lookup : forall v n all, sget n (balance_of_version v all) = find_balance v n all.
Proof.
  intros v n all. induction all as [|[[v' n'] u] all IH]; [reflexivity|]. cbn [balance_of_version flat_map find_balance]. fold (balance_of_version v all).
  destruct (v' =? v); cbn [app andb]; [|exact IH]. cbn [sget]. destruct (String.eqb n' n); [reflexivity|exact IH].
Qed.
(** ** Runs in another order *)
Lemma per_exists : forall A mc w all (rows : Z -> item -> list A) l l' per, Permutation l l' -> Forall2 (source_table mc w all rows) l per -> exists per', Forall2 (source_table mc w all rows) l' per'.
Proof.
  intros A mc w all rows l l' per Hp F. assert (K : Forall (fun d => exists x, source_table mc w all rows d x) l) by (clear - F; induction F; constructor; eauto).
  assert (K3 : Forall (fun d => exists x, source_table mc w all rows d x) l') by (rewrite Forall_forall in *; intros d Hd; apply K; eapply Permutation_in; [symmetry; exact Hp|exact Hd]).
  clear - K3. induction K3 as [|d l (x & Hx) _ (p & Fp)]; [exists []; constructor|]. exists (x :: p). constructor; assumption.
Qed.
Lemma content_reordered : forall mc w all l l' n c, n <> TDetails -> Permutation l l' -> content_of mc w all l' n c -> exists c', content_of mc w all l n c' /\ same_batches c' c.
Proof.
  intros mc w all l l' n c Hn Hp Hc. assert (X : exists c', content_of mc w all l n c').
  { destruct Hc; [congruence|..]; match goal with F : Forall2 _ l' _ |- _ => destruct (per_exists _ _ _ _ _ _ _ _ (Permutation_sym Hp) F) as (q & Fq) end; eexists; constructor; exact Fq. }
  destruct X as (c' & Hc'). exists c'. split; [exact Hc'|]. eapply content_permutation; eassumption.
Qed.
Lemma same_refl : forall c, same_batches c c.
Proof. intros []; constructor; apply Permutation_refl. Qed.
Lemma batches_outcome : forall A (f : full_init -> outcome (option (list A))) l l', (forall d, no_err (f d)) -> Permutation l l' -> fst (batches f l) = fst (batches f l').
Proof.
  intros A f l l' Hf Hp. assert (K : forall l, fst (batches f l) = if existsb (fun d => match f d with Panic => true | _ => false end) l then Panic else Ok tt).
  { clear l l' Hp. induction l as [|d l IH]; cbn [batches existsb]; [reflexivity|]. destruct (f d) as [[[|r b]|]|e|] eqn:Ed; cbn [orb]; [exact IH| |exact IH|destruct (Hf d e Ed)|reflexivity].
    destruct (batches f l) as [o bs]. exact IH. }
  rewrite !K. set (g := fun d => match f d with Panic => true | _ => false end). replace (existsb g l') with (existsb g l); [reflexivity|].
  clearbody g. clear - Hp. induction Hp as [|d l l' _ IH|d e l|l1 l2 l3 _ IH1 _ IH2]; cbn [existsb]; [reflexivity|now rewrite IH| |congruence]. destruct (g d), (g e); reflexivity.
Qed.
Lemma write_table_outcome : forall mc w all ok order sources n, world_bytes w -> any_order order ->
  fst (write_table mc w all ok order sources n) = fst (write_table mc w all ok (fun _ l => l) sources n).
Proof.
  intros mc w all ok order sources n Hw Ho. unfold write_table. destruct n; cbv zeta; [reflexivity|..]; (match goal with |- context [if ok ?x then _ else _] => destruct (ok x) end; [|reflexivity]); unfold file_of; cbn [fst];
    apply batches_outcome; try (apply Permutation_sym; apply Ho); intros d; apply source_rows_no_err; exact Hw.
Qed.
Lemma snapshot_outcome : forall mc w all dir ok order sources, world_bytes w -> any_order order ->
  fst (write_snapshot mc w all dir ok order sources) = fst (write_snapshot mc w all dir ok (fun _ l => l) sources).
Proof.
  intros mc w all dir ok order sources Hw Ho. unfold write_snapshot. destruct dir; [|reflexivity]. induction all_tables as [|n l IH]; cbn [write_tables]; [reflexivity|].
  pose proof (write_table_outcome mc w all ok order sources n Hw Ho) as K. destruct (write_table mc w all ok order sources n) as [o fs], (write_table mc w all ok (fun _ l => l) sources n) as [o' fs'].
  cbn [fst] in K. subst o'. destruct o as [[]|e|]; [|reflexivity|reflexivity].
  destruct (write_tables (write_table mc w all ok order sources) l) as [o1 f1], (write_tables (write_table mc w all ok (fun _ l => l) sources) l) as [o2 f2]. exact IH.
Qed.
Lemma export_ok : forall mc t w all dir ok order source c fs, world_bytes w -> any_order order -> export_replays mc t w all dir ok order source c = (Ok tt, fs) ->
  exists sources, choose_sources (mc_build mc) t w source c = Ok sources /\
    Forall2 (fun n f => exists x x', f = mk_arrow (snapshot_name n) x true /\ content_of mc w all sources n x' /\ same_batches x' x) snapshot_tables fs.
Proof.
  intros mc t w all dir ok order source c fs Hw Ho E. unfold export_replays in E. destruct (choose_sources (mc_build mc) t w source c) as [sources|e|]; [|discriminate|discriminate].
  exists sources. split; [reflexivity|]. eapply VersionedEncode.Forall2_impl'; [|exact (snapshot_ok _ _ _ _ _ _ _ _ Hw E)]. intros n f (x & -> & Hx). exists x.
  destruct n; cbv iota in Hx; [exists x; split; [reflexivity|]; split; [exact Hx|apply same_refl]|..];
    (match type of Hx with content_of _ _ _ _ ?n _ => assert (Hn : n <> TDetails) by discriminate end; destruct (content_reordered _ _ _ _ _ _ _ Hn (Ho _ sources) Hx) as (x' & Hx' & Hs); exists x'; auto).
Qed.
Lemma export_serial : forall mc t w all dir ok source c fs, world_bytes w -> export_replays mc t w all dir ok (fun _ l => l) source c = (Ok tt, fs) ->
  exists sources, choose_sources (mc_build mc) t w source c = Ok sources /\
    Forall2 (fun n f => exists x, f = mk_arrow (snapshot_name n) x true /\ content_of mc w all sources n x) snapshot_tables fs.
Proof.
  intros mc t w all dir ok source c fs Hw E. unfold export_replays in E. destruct (choose_sources (mc_build mc) t w source c) as [sources|e|]; [|discriminate|discriminate].
  exists sources. split; [reflexivity|]. eapply VersionedEncode.Forall2_impl'; [|exact (snapshot_ok _ _ _ _ _ _ _ _ Hw E)]. intros n f (x & -> & Hx). exists x. destruct n; (split; [reflexivity|exact Hx]).
Qed.
Lemma export_stops : forall mc t w all dir ok order source c o fs, world_bytes w -> any_order order -> export_replays mc t w all dir ok order source c = (o, fs) -> o <> Ok tt ->
  fs = [] \/ exists sources k done rest, choose_sources (mc_build mc) t w source c = Ok sources /\ (k < 7)%nat /\ fs = done ++ rest /\
    Forall2 (fun n f => exists x x', f = mk_arrow (snapshot_name n) x true /\ content_of mc w all sources n x' /\ same_batches x' x) (firstn k snapshot_tables) done /\
    (rest = [] \/ exists n x, nth_error snapshot_tables k = Some n /\ n <> TDetails /\ o = Panic /\ rest = [mk_arrow (snapshot_name n) x false]).
Proof.
  intros mc t w all dir ok order source c o fs Hw Hor E Ho. unfold export_replays in E. destruct (choose_sources (mc_build mc) t w source c) as [sources|e|]; [|injection E as <- <-; now left|injection E as <- <-; now left].
  unfold write_snapshot in E. destruct dir; [|injection E as <- <-; now left]. right. destruct (tables_stop _ _ _ _ _ _ _ _ _ Hw E Ho) as (k & done & rest & Hk & Ef & Hd & Hr).
  exists sources, k, done, rest. split; [reflexivity|]. split; [exact Hk|]. split; [exact Ef|]. split; [|destruct Hr as [->|(n & x & H1 & H2 & H3 & ->)]; [now left|]; right; exists n, x; split; [exact H1|]; split; [exact H2|]; split; [exact H3|]; destruct n; reflexivity].
  eapply VersionedEncode.Forall2_impl'; [|exact Hd]. intros n f (x & -> & Hx). exists x.
  destruct n; cbv iota in Hx; [exists x; split; [reflexivity|]; split; [exact Hx|apply same_refl]|..];
    (match type of Hx with content_of _ _ _ _ ?n _ => assert (Hn : n <> TDetails) by discriminate end; destruct (content_reordered _ _ _ _ _ _ _ Hn (Hor _ sources) Hx) as (x' & Hx' & Hs); exists x'; auto).
Qed.
