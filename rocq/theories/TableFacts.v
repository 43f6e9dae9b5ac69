(** * Facts about the lookup tables *)
From Verif Require Import Base Lobby Balance TableSpec.
#[local] Open Scope string_scope.
#[local] Open Scope Z_scope.
#[local] Open Scope list_scope.

(** ** First matching line *)
Definition pick_line (link index : Z) (lines : list (Z * Z * string)) : option string :=
  match find (fun l => (fst (fst l) =? link) && (snd (fst l) =? index)) lines with Some l => Some (snd l) | None => None end.
Definition or_else {A} (a b : option A) : option A := match a with Some x => Some x | None => b end.
Lemma pick_app : forall link index a b, pick_line link index (a ++ b) = or_else (pick_line link index a) (pick_line link index b).
Proof.
  intros link index a b. unfold pick_line. induction a as [|x a IH]; [reflexivity|]. cbn [app find]. destruct (_ && _); [reflexivity|exact IH].
Qed.
Lemma pick_cons : forall link index a c s l, pick_line link index ((a, c, s) :: l) = if (a =? link) && (c =? index) then Some s else pick_line link index l.
Proof. intros. unfold pick_line. cbn [find fst snd]. destruct (_ && _); reflexivity. Qed.
Lemma pick_first : forall link index lines name, pick_line link index lines = Some name <-> first_line lines link index name.
Proof.
  intros link index lines name. induction lines as [|[[a c] s] lines IH].
  - split; [discriminate|]. intros (b & t & E & _). destruct b; discriminate.
  - rewrite pick_cons. destruct ((a =? link) && (c =? index)) eqn:E.
    + apply andb_true_iff in E as [Ea Ec]. apply Z.eqb_eq in Ea, Ec. subst. split.
      * intros [= ->]. exists [], lines. split; [reflexivity|]. intros s' [].
      * intros (b & t & Eb & Hn). destruct b as [|x b]; cbn [app] in Eb; [injection Eb as <- _; reflexivity|]. injection Eb as <- _. exfalso. exact (Hn s (or_introl eq_refl)).
    + rewrite IH. split.
      * intros (b & t & -> & Hn). exists ((a, c, s) :: b), t. split; [reflexivity|]. intros s' [Hx|Hx]; [|exact (Hn s' Hx)]. injection Hx as -> -> _. rewrite !Z.eqb_refl in E. discriminate.
      * intros (b & t & Eb & Hn). destruct b as [|x b]; cbn [app] in Eb.
        -- injection Eb as -> -> _ _. rewrite !Z.eqb_refl in E. discriminate.
        -- injection Eb as <- ->. exists b, t. split; [reflexivity|]. intros s' Hx. exact (Hn s' (or_intror Hx)).
Qed.
Lemma pick_none : forall link index lines, pick_line link index lines = None <-> forall s, ~ In (link, index, s) lines.
Proof.
  intros link index lines. induction lines as [|[[a c] s] lines IH]; [split; [intros _ s []|reflexivity]|].
  rewrite pick_cons. destruct ((a =? link) && (c =? index)) eqn:E.
  - apply andb_true_iff in E as [Ea Ec]. apply Z.eqb_eq in Ea, Ec. subst. split; [discriminate|]. intros Hn. exfalso. exact (Hn s (or_introl eq_refl)).
  - rewrite IH. split; [|intros Hn s' Hx; exact (Hn s' (or_intror Hx))]. intros Hn s' [Hx|Hx]; [|exact (Hn s' Hx)]. injection Hx as -> -> _. rewrite !Z.eqb_refl in E. discriminate.
Qed.
Lemma command_loop_pick : forall i id index l,
  command_loop id index l = pick_line i index (map (fun c => (i, bc_index c, (id ++ "." ++ match bc_id c with Some s => s | None => "" end)%string)) l).
Proof.
  intros i id index. induction l as [|c l IH]; [reflexivity|]. cbn [command_loop map]. rewrite pick_cons, Z.eqb_refl. cbn [andb]. rewrite Z.eqb_sym. destruct (bc_index c =? index); [reflexivity|exact IH].
Qed.
Lemma other_lines : forall link index i id l, i <> link -> pick_line link index (map (fun c : bal_command => (i, bc_index c, id c)) l) = None.
Proof. intros link index i id l Hi. induction l as [|c l IH]; [reflexivity|]. cbn [map]. rewrite pick_cons. apply Z.eqb_neq in Hi. rewrite Hi. exact IH. Qed.
Lemma ability_loop_pick : forall link index l, ability_loop link index l = pick_line link index (flat_map ability_lines l).
Proof.
  intros link index. induction l as [|a l IH]; [reflexivity|]. cbn [ability_loop flat_map]. rewrite pick_app. unfold ability_lines at 1. destruct (ba_index a) as [i|]; [|exact IH].
  destruct (i =? link) eqn:E; cbn [negb].
  - apply Z.eqb_eq in E. subst i. rewrite <- (command_loop_pick link). rewrite IH. destruct (command_loop _ _ _); reflexivity.
  - apply Z.eqb_neq in E. rewrite (other_lines link index i (fun c => (ba_id a ++ "." ++ match bc_id c with Some s => s | None => "" end)%string)) by assumption. exact IH.
Qed.
Lemma ref_loop_pick : forall prefix link index l, ref_loop prefix link index l = pick_line link index (flat_map (ref_lines prefix) l).
Proof.
  intros prefix link index. induction l as [|r l IH]; [reflexivity|]. cbn [ref_loop flat_map]. unfold ref_lines at 1. destruct (br_ability r) as [a|]; [|exact IH]. destruct (br_command r) as [c|]; [|exact IH].
  cbn [app]. rewrite pick_cons, (Z.eqb_sym a), (Z.eqb_sym c). destruct (_ && _); [reflexivity|exact IH].
Qed.
Lemma research_loop_pick : forall link index l, research_loop link index l = pick_line link index (map research_line l).
Proof.
  intros link index. induction l as [|r l IH]; [reflexivity|]. cbn [research_loop map]. unfold research_line at 1. rewrite pick_cons, (Z.eqb_sym (bs_ability r)), (Z.eqb_sym (bs_index r)). destruct (_ && _); [reflexivity|exact IH].
Qed.
Lemma command_name_pick : forall b name link index u, sget name b = Some u ->
  get_indexed_ability_command_name b name link index = match pick_line link index (command_lines u) with Some s => s | None => "" end.
Proof.
  intros b name link index u Hu. unfold get_indexed_ability_command_name, command_lines. rewrite Hu, ability_loop_pick, !ref_loop_pick, !pick_app.
  destruct (pick_line _ _ (flat_map ability_lines _)); [reflexivity|]. destruct (pick_line _ _ (flat_map (ref_lines "Train.") _)); [reflexivity|].
  destruct (pick_line _ _ (flat_map (ref_lines "Build.") _)); [reflexivity|]. cbn [or_else]. destruct (bu_researches u) as [rs|]; [rewrite research_loop_pick|]; reflexivity.
Qed.
Lemma command_name : forall b unit_name link index, 
  match sget unit_name b with
  | Some u =>
      (forall name, first_line (command_lines u) link index name -> get_indexed_ability_command_name b unit_name link index = name) /\
      ((forall name, ~ In (link, index, name) (command_lines u)) -> get_indexed_ability_command_name b unit_name link index = "")
  | None => get_indexed_ability_command_name b unit_name link index = ""
  end.
Proof.
  intros b unit_name link index. destruct (sget unit_name b) as [u|] eqn:E; [|unfold get_indexed_ability_command_name; now rewrite E].
  rewrite (command_name_pick b unit_name link index u E). split; [intros name Hn; apply (proj2 (pick_first _ _ _ _)) in Hn; now rewrite Hn|].
  intros Hn. apply (proj2 (pick_none _ _ _)) in Hn. now rewrite Hn.
Qed.
Lemma command_name_total : forall u link index, (exists name, first_line (command_lines u) link index name) \/ (forall name, ~ In (link, index, name) (command_lines u)).
Proof. intros u link index. destruct (pick_line link index (command_lines u)) as [s|] eqn:E; [left; exists s; now apply pick_first|right; now apply pick_none]. Qed.

(** ** Lobby *)
Lemma slot_loop_spec : forall p slots n,
  match slot_loop n p slots with
  | Some k => exists i s, k = (n + i)%nat /\ first_slot slots p i s
  | None => ~ has_slot slots p
  end.
Proof.
  intros p. induction slots as [|s slots IH]; intros n; cbn [slot_loop].
  - intros (i & s & id & _ & E & _). destruct i; discriminate.
  - assert (Step : (forall id, pd_slot p = Some id -> ls_slot s <> Some id) -> match slot_loop (Datatypes.S n) p slots with
        | Some k => exists i s0, k = (n + i)%nat /\ first_slot (s :: slots) p i s0 | None => ~ has_slot (s :: slots) p end).
    { intros Hs. specialize (IH (Datatypes.S n)). destruct (slot_loop (Datatypes.S n) p slots) as [k|].
      - destruct IH as (i & s' & -> & id & Hp & Hn & Hl & Hj). exists (Datatypes.S i), s'. split; [lia|]. exists id. split; [exact Hp|]. split; [exact Hn|]. split; [exact Hl|].
        intros [|j] x Hlt Hx; [injection Hx as <-; now apply Hs|]. apply (Hj j x); [lia|exact Hx].
      - intros (i & s' & id & Hp & Hn & Hl & Hj). apply IH. destruct i as [|i]; [injection Hn as <-; exfalso; exact (Hs id Hp Hl)|].
        exists i, s', id. split; [exact Hp|]. split; [exact Hn|]. split; [exact Hl|]. intros j x Hlt Hx. apply (Hj (Datatypes.S j) x); [lia|exact Hx]. }
    destruct (ls_slot s) as [a|] eqn:Ea; [|apply Step; intros; discriminate]. destruct (pd_slot p) as [b|] eqn:Eb; [|apply Step; intros id [=]].
    destruct (a =? b) eqn:E.
    + apply Z.eqb_eq in E. subst b. exists O, s. split; [lia|]. exists a. split; [exact Eb|]. split; [reflexivity|]. split; [exact Ea|]. intros j x Hj. lia.
    + apply Step. intros id [= <-] [= ->]. rewrite Z.eqb_refl in E. discriminate.
Qed.
Lemma first_slot_unique : forall slots p i s i' s', first_slot slots p i s -> first_slot slots p i' s' -> i = i' /\ s = s'.
Proof.
  intros slots p i s i' s' (id & Hp & Hn & Hl & Hj) (id' & Hp' & Hn' & Hl' & Hj'). assert (id' = id) by congruence. subst id'.
  destruct (Nat.lt_trichotomy i i') as [H|[->|H]]; [exfalso; exact (Hj' _ _ H Hn Hl)|split; [reflexivity|congruence]|exfalso; exact (Hj _ _ H Hn' Hl')].
Qed.
(** What the entry of player [p] says. *)
Lemma lobby_of_spec : forall init d p,
  (exists i s, first_slot (id_slots init) p i s /\ lobby_of init d p = Ok (Some (mk_lobby p s (de_title d) (id_description init) (de_time_utc d) (de_time_offset d)
    match nth_error (id_initial init) i with Some u => uid_name u | None => "" end
    match nth_error (id_initial init) i with Some u => match uid_clan u with Some c => c | None => "" end | None => "" end
    None None (de_handles d) (id_sha256 init) (id_file init) (de_fs_id d) (de_datetime d)))) \/
  (~ has_slot (id_slots init) p /\ lobby_of init d p = Ok None).
Proof.
  intros init d p. unfold lobby_of. pose proof (slot_loop_spec p (id_slots init) 0) as Hs. destruct (slot_loop 0 p (id_slots init)) as [k|]; [|right; auto].
  destruct Hs as (i & s & -> & Hf). left. exists i, s. split; [exact Hf|]. cbn [Nat.add]. destruct Hf as (id & _ & Hn & _). now rewrite Hn.
Qed.
Lemma lobby_pairs : forall init d, exists entries, lobby_details_of init d = Ok entries /\
  keeps (has_slot (id_slots init)) (map ld_player entries) (de_players d) /\
  Forall (fun e => exists i, first_slot (id_slots init) (ld_player e) i (ld_slot e)) entries.
Proof.
  intros init d. unfold lobby_details_of. induction (de_players d) as [|p ps IH]; [exists []; split; [reflexivity|]; split; constructor|].
  destruct IH as (es & E & K & F). cbn [filter_map_out]. destruct (lobby_of_spec init d p) as [(i & s & Hf & ->)|[Hn ->]]; cbn [obind]; rewrite E; cbn [obind].
  - eexists. split; [reflexivity|]. split; [cbn [map]; apply keeps_yes; [exists i, s; exact Hf|exact K]|]. constructor; [exists i; exact Hf|exact F].
  - exists es. split; [reflexivity|]. split; [apply keeps_no; assumption|exact F].
Qed.
Lemma lobby_common : forall init d entries, lobby_details_of init d = Ok entries -> Forall (fun e =>
  ld_title e = de_title d /\ ld_description e = id_description init /\ ld_time_utc e = de_time_utc d /\ ld_time_offset e = de_time_offset d /\
  ld_handles e = de_handles d /\ ld_sha256 e = id_sha256 init /\ ld_file e = id_file init /\ ld_fs_id e = de_fs_id d /\ ld_datetime e = de_datetime d /\
  ld_setup_player e = None /\ ld_setup_slot e = None) entries.
Proof.
  intros init d. unfold lobby_details_of. induction (de_players d) as [|p ps IH]; intros entries E; cbn [filter_map_out] in E; [injection E as <-; constructor|].
  destruct (lobby_of_spec init d p) as [(i & s & Hf & Hp)|[Hn Hp]]; rewrite Hp in E; cbn [obind] in E; destruct (filter_map_out _ ps) as [es| |] eqn:Es; cbn [obind] in E; try discriminate E; injection E as <-;
    specialize (IH es eq_refl); [constructor; [cbn; repeat split|exact IH]|exact IH].
Qed.
Lemma lobby_names : forall init d entries, lobby_details_of init d = Ok entries -> Forall (fun e => exists i, first_slot (id_slots init) (ld_player e) i (ld_slot e) /\
  ld_init_name e = match nth_error (id_initial init) i with Some u => uid_name u | None => "" end /\
  ld_init_clan e = match nth_error (id_initial init) i with Some u => match uid_clan u with Some c => c | None => "" end | None => "" end) entries.
Proof.
  intros init d. unfold lobby_details_of. induction (de_players d) as [|p ps IH]; intros entries E; cbn [filter_map_out] in E; [injection E as <-; constructor|].
  destruct (lobby_of_spec init d p) as [(i & s & Hf & Hp)|[Hn Hp]]; rewrite Hp in E; cbn [obind] in E; destruct (filter_map_out _ ps) as [es| |] eqn:Es; cbn [obind] in E; try discriminate E; injection E as <-;
    specialize (IH es eq_refl); [constructor; [exists i; cbn; auto|exact IH]|exact IH].
Qed.
Lemma lobby_user_names : forall init d entries, lobby_details_of init d = Ok entries ->
  (forall i s, nth_error (id_slots init) i = Some s -> ls_user_id s = Some (Z.of_nat i)) ->
  Forall (fun e => exists k, ls_user_id (ld_slot e) = Some k /\
    ld_init_name e = match nth_error (id_initial init) (Z.to_nat k) with Some u => uid_name u | None => "" end) entries.
Proof.
  intros init d entries E Hu. eapply Forall_impl; [|exact (lobby_names init d entries E)]. intros e (i & (id & _ & Hn & _) & Hm & _). exists (Z.of_nat i). split; [exact (Hu _ _ Hn)|]. now rewrite Nat2Z.id.
Qed.
Lemma player_names_kept : forall d, exists ps, keeps (fun p => pd_observe p = 0) ps (de_players d) /\ get_player_names d = map pd_name ps.
Proof.
  intros d. exists (filter (fun p => pd_observe p =? 0) (de_players d)). split; [|reflexivity].
  induction (de_players d) as [|p l IH]; cbn [filter]; [constructor|]. destruct (Z.eqb_spec (pd_observe p) 0); constructor; assumption.
Qed.
