(** * Choosing a user by name: facts *)
From Verif Require Import Base F32 F32Facts Tags Events Maps Lobby Balance BitSpec BitPacked BitProofs BitInterp Convert Stream StreamFacts Iterators Dispatch IteratorFacts IteratorStreams
  State StateFacts StateSpec StateSteps StateProofs StateMore Merge MergeSpec MergeFacts MergeProofs TableSpec TableFacts UserSpec.
From Coq Require Import Permutation.
#[local] Open Scope string_scope.
#[local] Open Scope Z_scope.
#[local] Open Scope list_scope.

(** ** The filter itself *)
Lemma choose_step : forall name l f,
  let f' := fold_left (fun f x => if (pd_name x =? name)%string then set_player (pd_slot x) f else f) l f in
  same_but_player f f' /\ (~ In name (map pd_name l) -> f' = f) /\
  (In name (map pd_name l) -> exists l1 p l2, l = l1 ++ p :: l2 /\ pd_name p = name /\ ~ In name (map pd_name l2) /\ fi_player f' = pd_slot p).
Proof.
  intros name. induction l as [|x l IH]; intros f f'; [repeat split; intros []|]. unfold f'. clear f'. cbn [fold_left map].
  destruct (String.eqb_spec (pd_name x) name) as [E|E].
  - destruct (IH (set_player (pd_slot x) f)) as (A & B & C). cbv zeta in A, B, C. split; [exact A|]. split; [intros Hn; exfalso; apply Hn; left; exact E|]. intros _.
    destruct (in_dec string_dec name (map pd_name l)) as [Hi|Hi].
    + destruct (C Hi) as (l1 & p & l2 & -> & H1 & H2 & H3). exists (x :: l1), p, l2. auto.
    + exists [], x, l. rewrite (B Hi). auto.
  - destruct (IH f) as (A & B & C). cbv zeta in A, B, C. split; [exact A|]. split; [intros Hn; apply B; intros Hi; apply Hn; right; exact Hi|].
    intros [Hi|Hi]; [contradiction|]. destruct (C Hi) as (l1 & p & l2 & -> & H1 & H2 & H3). exists (x :: l1), p, l2. auto.
Qed.
Lemma choose_others : forall f name d, same_but_player f (set_player_id_from_user_name f name d).
Proof. intros f name d. apply (choose_step name (de_players d) f). Qed.
Lemma choose_unknown : forall f name d, ~ In name (map pd_name (de_players d)) -> set_player_id_from_user_name f name d = f.
Proof. intros f name d. apply (choose_step name (de_players d) f). Qed.
Lemma choose_last : forall f name d p, last_named name d p -> fi_player (set_player_id_from_user_name f name d) = pd_slot p.
Proof.
  intros f name d p (l1 & l2 & E & En & Hn). unfold set_player_id_from_user_name. rewrite E, fold_left_app. cbn [fold_left]. rewrite En, String.eqb_refl.
  destruct (choose_step name l2 (set_player (pd_slot p) (fold_left (fun f x => if (pd_name x =? name)%string then set_player (pd_slot x) f else f) l1 f))) as (_ & B & _). cbv zeta in B.
  rewrite (B Hn). reflexivity.
Qed.
Lemma last_exists : forall name d, In name (map pd_name (de_players d)) -> exists p, last_named name d p.
Proof.
  intros name d Hi. destruct (choose_step name (de_players d) (mk_filters None None None None None None None true)) as (_ & _ & C). cbv zeta in C.
  destruct (C Hi) as (l1 & p & l2 & E & A & B & _). exists p, l1, l2. auto.
Qed.

(** ** The names of the users of the first state *)
Lemma inserted_key : forall ps acc u, (exists us, mget u acc = Some us) \/ (exists l, In l ps /\ ls_user_id (ld_slot l) = Some u) -> exists us, mget u (fold_left insert_player ps acc) = Some us.
Proof.
  induction ps as [|p ps IH]; intros acc u H1; cbn [fold_left]; [destruct H1 as [H1|(l & [] & _)]; exact H1|].
  apply IH. unfold insert_player. destruct H1 as [(us & H1)|(l & [->|Hl] & El)].
  - left. destruct (ls_user_id (ld_slot p)) as [k|]; [|eauto]. rewrite mget_mset. destruct (k =? u); eauto.
  - left. rewrite El, mget_mset, Z.eqb_refl. eauto.
  - right. eauto.
Qed.
Lemma key_kept : forall (l l' : list (Z * user_state)) u us, Permutation l' l -> NoDup (map fst l') -> mget u l = Some us -> exists us', mget u l' = Some us'.
Proof.
  intros l l' u us Hp _ Hg. apply mget_In in Hg. apply (Permutation_in _ (Permutation_sym Hp)) in Hg. clear Hp l.
  induction l' as [|[k a] l' IH]; [destruct Hg|]. cbn [mget]. destruct (Z.eqb_spec k u) as [->|Hn]; [eauto|]. destruct Hg as [E|Hg]; [congruence|]. exact (IH Hg).
Qed.
Lemma seated_name : forall init d b st p q, starts init d b st -> seated init d -> In p (de_players d) -> pd_slot p = Some q -> player_names st q = Some (pd_name p).
Proof.
  intros init d b st p q Hst [Hnd Hs] Hp Hq.
  assert (Hu : exists us, user_of st q = Some us).
  { destruct Hst as (st1 & Hi & _ & _ & Hperm). unfold initial_state in Hi. apply obind_ok in Hi as (players & Hl & Hi). injection Hi as <-. cbn [st_users] in Hperm.
    destruct (Hs p Hp) as (q' & Eq & (s & Hin & Es) & Hall). assert (q' = q) by congruence. subst q'.
    destruct (lobby_of_spec init d p) as [(i & s' & (id & Ep & Hnth & Els & _) & El)|[Hno _]].
    - assert (id = q) by congruence. subst id. match type of El with _ = Ok (Some ?x) => set (ld := x) in * end.
      assert (Hld : In ld players) by (apply (filter_map_out_In _ _ _ _ _ ld Hl); eauto).
      destruct (inserted_key players [] q) as (us & Eus). { right. exists ld. split; [exact Hld|]. cbn. apply Hall; [eapply nth_error_In; exact Hnth|exact Els]. }
      unfold user_of. eapply key_kept; [exact Hperm| |exact Eus].
      eapply Permutation_NoDup; [apply Permutation_map, Permutation_sym; exact Hperm|]. apply initial_users_wf.
    - exfalso. clear - Hno Hq Hin Es. apply Hno.
      pose proof (slot_loop_spec p (id_slots init) 0) as L. destruct (slot_loop 0 p (id_slots init)) as [k|] eqn:Ek; [destruct L as (i & s' & _ & L); exists i, s'; exact L|].
      exfalso. clear L Hno. revert Ek. generalize 0%nat. induction (id_slots init) as [|x l IH]; [destruct Hin|]. intros n. cbn [slot_loop]. rewrite Hq.
      destruct Hin as [->|Hin]; [rewrite Es, Z.eqb_refl; discriminate|]. destruct (ls_slot x) as [a|]; [destruct (a =? q); [discriminate|]|]; apply IH, Hin. }
  destruct Hu as (us & Hu). destruct (start_user _ _ _ _ _ _ Hst Hu) as (l & players & -> & Hl & Hd & Hin).
  unfold player_names. change (mget q (st_users st)) with (user_of st q). rewrite Hu. cbn [new_user us_lobby]. f_equal.
  apply (filter_map_out_In _ _ _ _ _ l Hd) in Hin as (p' & Hp' & El). destruct (lobby_of_spec init d p') as [(i & s & (id & Ep & Hnth & Els & _) & E2)|[_ E2]]; rewrite E2 in El; [|discriminate].
  injection El as <-. cbn in *. destruct (Hs p' Hp') as (q' & Eq' & _ & Hall). assert (id = q') by congruence. subst id.
  rewrite (Hall s ltac:(eapply nth_error_In; exact Hnth) Els) in Hl. injection Hl as ->.
  apply In_nth_error in Hp as (n1 & N1). apply In_nth_error in Hp' as (n2 & N2).
  assert (n1 = n2). { eapply (NoDup_nth_error (map pd_slot (de_players d))); [exact Hnd|rewrite map_length; apply nth_error_Some; congruence|].
    rewrite (map_nth_error pd_slot _ _ N1), (map_nth_error pd_slot _ _ N2). congruence. }
  subst n2. congruence.
Qed.

(** ** The names the iterator gives *)
Section Names.
  Variable mc : machine.
  Variable p : proto.
  Notation build := (mc_build mc).
  Variable names : Z -> option string.
  Lemma game_next_name : forall nm n c l x s', (cursor_size c <= n)%nat -> aligned c -> game_next build p nm (c, l) = Ok (Some x, s') -> gi_name (snd x) = nm (gi_user (snd x)).
  Proof.
    intros nm. pose proof (triplet_good build _ (game_wf p) (game_no p) (game_min p)) as Hg. unfold game_next.
    induction n as [|n IH]; intros c l x s' Hn Ha E; rewrite (next_unfold cursor_end cursor_size _ (game_convert nm) aligned Hg (triplet_nu build _)) in E by exact Ha;
    destruct (cursor_end c); try discriminate; destruct (parse_event_triplet build (game_type p) c) as [[c' [d [u v]]]|e|] eqn:Ep; try discriminate;
    destruct (Hg _ _ _ _ Ha Ep) as [Ha' Hs]; [lia|].
    unfold game_convert at 1 in E. cbn [fst snd] in E. destruct (game_from v) as [e|e|]; cbn [obind] in E; [injection E as <- _; reflexivity| |discriminate].
    destruct e; try discriminate. eapply IH; [|exact Ha'|exact E]. lia.
  Qed.
  Definition named (it : merged) : Prop :=
    wf (mg_state it) /\ (forall u, player_names (mg_state it) u = names u) /\
    match mg_next_game it with Some g => gi_name (snd g) = names (gi_user (snd g)) | None => True end.
  Definition right_name (e : sc2_event) : Prop := match e with EGame _ u n _ => n = names u | ETracker _ _ => True end.
  Lemma advance_named : forall it r it', good it -> named it -> advance mc p it = Ok (r, it') ->
    named it' /\ match r with Some e => right_name e | None => True end.
  Proof.
    intros it r it' [Ht Hg] (Hw & Hn & Hp) E. unfold advance in E. apply obind_ok in E as (it1 & E1 & E). apply obind_ok in E as (it2 & E2 & E). injection E as E.
    assert (F1 : named it1 /\ aligned (fst (mg_game it1))).
    { unfold fill_tracker in E1. destruct (mg_next_tracker it); [injection E1 as <-; split; [split; auto|exact Hg]|]. apply obind_ok in E1 as ([x s] & _ & E1). injection E1 as <-. split; [split; auto|exact Hg]. }
    destruct F1 as [(W1 & N1 & P1) G1].
    assert (F2 : named it2).
    { unfold fill_game in E2. destruct (mg_next_game it1) eqn:En; [injection E2 as <-; split; [exact W1|split; [exact N1|now rewrite En]]|]. apply obind_ok in E2 as ([x s] & Ex & E2). injection E2 as <-.
      split; [exact W1|]. split; [exact N1|]. cbn [mg_next_game]. destruct x as [x|]; [|exact Logic.I]. rewrite <- N1. destruct (mg_game it1) as [c l]. eapply game_next_name; [|exact G1|exact Ex]. apply Nat.le_refl. }
    destruct F2 as (W2 & N2 & P2).
    unfold pick in E. unfold named. destruct (mg_next_tracker it2) as [t|] eqn:T; destruct (mg_next_game it2) as [g|] eqn:G; [destruct (tracker_first _ _)| | |];
      injection E as <- <-; unfold take_tracker, take_game; cbn; rewrite ?G; auto.
  Qed.
  Lemma handled_named : forall it it1 e st i, mg_state it1 = mg_state it -> named it1 -> right_name e -> handle_transition mc (mg_state it) e = Ok (st, i) -> named (with_state st it1) /\ right_name (it_event i).
  Proof.
    intros it it1 e st i Es (W & N & P) R Eh. rewrite <- Es in Eh. split.
    - split; [eapply step_wf; eauto|]. split; [|exact P]. intros u. cbn. rewrite (step_names mc _ _ _ _ W Eh). apply N.
    - apply handle_user in Eh. destruct e, (it_event i); try contradiction; [exact Logic.I|]. destruct Eh as (_ & -> & ->). exact R.
  Qed.
  Lemma next_named : forall it r it', good it -> merge_next mc p it = Ok (r, it') -> named it -> named it' /\ match r with Some i => right_name (it_event i) | None => True end.
  Proof.
    apply (merge_next_ind mc p (fun it r it' => named it -> named it' /\ match r with Some i => right_name (it_event i) | None => True end)).
    - intros it it1 Hg Ea Hn. apply (advance_named _ _ _ Hg Hn Ea).
    - intros it e it1 st i Hg Ea Eh Hf Hn. destruct (advance_named _ _ _ Hg Hn Ea) as [A B]. destruct (advance_facts mc p _ _ _ Hg Ea) as (_ & _ & S1 & _). exact (handled_named _ _ _ _ _ S1 A B Eh).
    - intros it e it1 st i f Hg Ea Eh Hf Hs Hn. destruct (advance_named _ _ _ Hg Hn Ea) as [A B]. destruct (advance_facts mc p _ _ _ Hg Ea) as (_ & _ & S1 & _).
      destruct (handled_named _ _ _ _ _ S1 A B Eh) as [C D]. split; [exact C|]. destruct (max_reached _); [exact Logic.I|exact D].
    - intros it e it1 st i f r it2 Hg Ea Eh Hf Hs IH Hn. destruct (advance_named _ _ _ Hg Hn Ea) as [A B]. destruct (advance_facts mc p _ _ _ Hg Ea) as (_ & _ & S1 & _).
      apply IH. exact (proj1 (handled_named _ _ _ _ _ S1 A B Eh)).
  Qed.
  Lemma calls_named : forall n it rs it', good it -> named it -> merge_calls mc p n it = Ok (rs, it') -> Forall (fun i => right_name (it_event i)) (present rs).
  Proof.
    induction n as [|n IH]; intros it rs it' Hg Hn E; cbn [merge_calls] in E; [injection E as <- <-; constructor|].
    apply obind_ok in E as ([r it1] & E1 & E). apply obind_ok in E as ([rs1 it2] & E2 & E). injection E as <- <-. destruct (next_named _ _ _ Hg E1 Hn) as [A B].
    cbn [present flat_map]. apply Forall_app. split; [destruct r; constructor; [exact B|constructor]|]. eapply IH; [|exact A|exact E2]. eapply next_good; eauto.
  Qed.
  (** The chosen player stays chosen. *)
  Lemma next_player : forall it r it', good it -> merge_next mc p it = Ok (r, it') -> forall f, mg_filters it = Some f -> exists f', mg_filters it' = Some f' /\ fi_player f' = fi_player f.
  Proof.
    apply (merge_next_ind mc p (fun it r it' => forall f, mg_filters it = Some f -> exists f', mg_filters it' = Some f' /\ fi_player f' = fi_player f)).
    - intros it it1 Hg Ea f Hf. destruct (advance_facts mc p _ _ _ Hg Ea) as (_ & _ & _ & F1). exists f. split; congruence.
    - intros it e it1 st i Hg Ea Eh Hf f Hf'. congruence.
    - intros it e it1 st i f Hg Ea Eh Hf Hs f0 Hf0. exists (decrease_allowed f). split; [reflexivity|]. assert (f0 = f) by congruence. subst f0. unfold decrease_allowed. destruct (fi_events f) as [m|]; [destruct (0 <? m)|]; reflexivity.
    - intros it e it1 st i f r it2 Hg Ea Eh Hf Hs IH f0 Hf0. destruct (advance_facts mc p _ _ _ Hg Ea) as (_ & _ & _ & F1). apply IH. cbn. congruence.
  Qed.
  Lemma calls_player : forall n it rs it' f q, good it -> user_ok it -> mg_filters it = Some f -> fi_player f = Some q -> merge_calls mc p n it = Ok (rs, it') ->
    Forall (fun i => match it_event i with EGame _ u _ _ => u = q | ETracker _ e => match controlling_player e with Some c => c = q | None => True end end) (present rs).
  Proof.
    induction n as [|n IH]; intros it rs it' f q Hg Hu Hf Hq E; cbn [merge_calls] in E; [injection E as <- <-; constructor|].
    apply obind_ok in E as ([r it1] & E1 & E). apply obind_ok in E as ([rs1 it2] & E2 & E). injection E as <- <-.
    destruct (next_player _ _ _ Hg E1 f Hf) as (f1 & Hf1 & Hq1). destruct (next_user mc p _ _ _ Hg E1 Hu) as [U1 U2].
    cbn [present flat_map]. apply Forall_app. split; [|eapply IH; [eapply next_good; eauto|exact U1|exact Hf1|congruence|exact E2]].
    destruct r as [i|]; constructor; [|constructor]. pose proof (shown_accepted mc p it i it1 f Hg Hf E1) as Hs. unfold skip_event in Hs.
    destruct (it_event i) as [l e|l u nm e].
    - match type of Hs with (if ?c then _ else _) = _ => destruct c; [discriminate|] end. cbn [event_skip] in Hs. unfold tracker_skip, differs in Hs. rewrite Hq in Hs.
      destruct e; cbn [controlling_player]; auto; repeat match type of Hs with context [?x =? q] => destruct (Z.eqb_spec x q); [assumption|discriminate] end.
    - cbn in Hs. rewrite Hq in Hs. cbn in Hs. unfold as_u8 in Hs. rewrite Z.mod_small in Hs by lia. destruct (Z.eqb_spec u q); [assumption|discriminate].
  Qed.
End Names.

Lemma event_names : forall mc p init d b st t g f n rs it', starts init d b st -> bytes_ok t -> bytes_ok g -> merge_calls mc p n (merge_start st t g f) = Ok (rs, it') ->
  Forall (fun i => match it_event i with EGame _ u nm _ => nm = player_names st u | ETracker _ _ => True end) (present rs).
Proof.
  intros mc p init d b st t g f n rs it' Hst Ht Hg E. refine (calls_named mc p (player_names st) n (merge_start st t g f) rs it' _ _ E); [now apply start_good|].
  split; [apply (starts_wf _ _ _ _ Hst)|]. split; [reflexivity|exact Logic.I].
Qed.
Lemma named_events : forall mc p init d b st t g f name n rs it', starts init d b st -> bytes_ok t -> bytes_ok g -> seated init d -> In name (map pd_name (de_players d)) ->
  merge_calls mc p n (merge_start st t g (Some (set_player_id_from_user_name f name d))) = Ok (rs, it') ->
  Forall (fun i => match it_event i with EGame _ _ nm _ => nm = Some name | ETracker _ _ => True end) (present rs).
Proof.
  intros mc p init d b st t g f name n rs it' Hst Ht Hg Hs Hi E. destruct (last_exists _ _ Hi) as (x & Hx). pose proof (choose_last f name d x Hx) as Hq.
  destruct Hx as (l1 & l2 & El & En & _). assert (Hin : In x (de_players d)) by (rewrite El; apply in_elt).
  destruct (proj2 Hs x Hin) as (q & Eq & _). rewrite Eq in Hq.
  pose proof (event_names _ _ _ _ _ _ _ _ _ _ _ _ Hst Ht Hg E) as A.
  assert (B := calls_player mc p (player_names st) n _ rs it' _ q (start_good st t g _ Ht Hg) Logic.I eq_refl Hq E).
  pose proof (seated_name _ _ _ _ _ _ Hst Hs Hin Eq) as Nq. rewrite Forall_forall in *. intros i Hii. specialize (A i Hii). specialize (B i Hii). cbv beta in *.
  destruct (it_event i) as [|l u nm e]; [exact Logic.I|]. cbn in A. subst u. congruence.
Qed.
