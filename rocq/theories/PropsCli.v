(** * C97-C101: the command [get] *)
From Verif Require Import Base Types Utf8 BitSpec BitFacts Versioned ByteTypes Dispatch Events Tags Maps Lobby Balance Stream StreamSpec Iterators IteratorStreams
  DetailsData DetailsSpec State StateSpec StateExample Merge MergeSpec Rows PropsRows Files Archive ArchiveSpec ArchiveFacts SnapshotFacts PropsArchive Cli CliSpec CliFacts.
From Verif Require Import Convert ConvertSpec.
#[local] Open Scope string_scope.
#[local] Open Scope Z_scope.
#[local] Open Scope list_scope.

(** No options; all of [get] on the directory "r" of PropsArchive.v. *)
Definition no_options : cli := mk_cli None None None None None None true false.
Definition get_good (c : cli) (r : read_type) : printed := handle_get_cmd ex_mc three_files (a_world all_good) a_balance c r ["r"].

(** C97.  A run that succeeds prints the parts of its sources, one after the
    other: for every archive the section asked for, for other files nothing. *)
Theorem C97_printed : forall mc t w all c r source out, world_bytes w -> handle_get_cmd mc t w all c r source = (Ok tt, out) ->
  exists l parts, sources_of t source l /\ Forall2 (part_of mc w all c r) l parts /\ out = concat parts.
Proof. exact get_ok. Qed.
Print Assumptions C97_printed.
(** The section of tracker events lists those of the tracker sector, all and in
    order ... *)
Theorem C97_tracker : forall mc w all c a d out, world_bytes w -> section_of mc w all c a d RTracker out ->
  exists st t g its, opens (mc_build mc) w all d st t g /\ out = [KOpen] ++ map KEvent its ++ [KClose] /\
    forall tevs gevs, sectors_of mc (iterator_proto d) tevs t gevs g -> Forall2 shows_tracker (at_loops 0 tevs) its.
Proof.
  intros mc w all c a d out Hw S. inversion S as [st t g its Ho D E| | | | |]. exists st, t, g, (filter of_tracker_events its). split; [exact Ho|]. split; [reflexivity|].
  intros tevs gevs Hp. exact (proj1 (events_shown mc w all d st t g tevs gevs its Hw Ho Hp D)).
Qed.
Print Assumptions C97_tracker.
(** ... and that of game events those of the game sector that the library
    supports (C22). *)
Theorem C97_game : forall mc w all c a d out, world_bytes w -> section_of mc w all c a d RGame out ->
  exists st t g its, opens (mc_build mc) w all d st t g /\ out = [KOpen] ++ map KEvent its ++ [KClose] /\
    forall tevs gevs, sectors_of mc (iterator_proto d) tevs t gevs g -> Forall2 (shows_game (player_names st)) (filter supported_game (at_loops 0 gevs)) its.
Proof.
  intros mc w all c a d out Hw S. inversion S as [|st t g its Ho D E| | | |]. exists st, t, g, (filter of_game_events its). split; [exact Ho|]. split; [reflexivity|].
  intros tevs gevs Hp. exact (proj2 (events_shown mc w all d st t g tevs gevs its Hw Ho Hp D)).
Qed.
Print Assumptions C97_game.
(** Two replays and a file that is not an archive. *)
Example C97_example : world_bytes (a_world all_good) /\
  (exists out, get_good no_options RTracker = (Ok tt, out) /\ length (filter is_value out) = 22%nat) /\
  (exists out, get_good no_options RGame = (Ok tt, out) /\ length (filter is_value out) = 7%nat) /\
  (exists x y, get_good no_options RInit = (Ok tt, [KInit x; KInit y]) /\ xi_file_name x = "r/a.SC2Replay" /\ xi_file_name y = "r/c.SC2Replay").
Proof.
  split; [exact good_world|]. split; [eexists; split; [vm_compute; reflexivity|reflexivity]|]. split; [eexists; split; [vm_compute; reflexivity|reflexivity]|].
  eexists. eexists. split; [vm_compute; reflexivity|]. split; reflexivity.
Qed.
(** The first of them, and its sectors (C76). *)
Definition first_init : outcome full_init := Eval vm_compute in init_try_from (mc_build ex_mc) (a_world all_good) ["r"; "a.SC2Replay"] 0.
Definition get_first (c : cli) (r : read_type) : printed := use first_init (get_one ex_mc (a_world all_good) a_balance c r a_good).
Lemma first_section : forall d c r, first_init = Ok d -> fst (get_first c r) = Ok tt -> section_of ex_mc (a_world all_good) a_balance c a_good d r (snd (get_first c r)).
Proof.
  intros d c r E F. unfold get_first in *. rewrite E in *. cbn [use] in *. apply get_one_ok; [exact good_world|exact good_bytes|].
  destruct (get_one ex_mc (a_world all_good) a_balance c r a_good d) as [o l]. cbn [fst snd] in *. rewrite F. reflexivity.
Qed.
Lemma first_opens : exists d st, first_init = Ok d /\ xi_file_name d = "r/a.SC2Replay" /\ iterator_proto d = P87702 /\ opens (mc_build ex_mc) (a_world all_good) a_balance d st r_t r_g.
Proof.
  assert (C : exists d, first_init = Ok d /\ xi_file_name d = "r/a.SC2Replay" /\ iterator_proto d = P87702 /\ exists it, iterator_new (mc_build ex_mc) (a_world all_good) d a_balance = Ok it).
  { eexists. split; [reflexivity|]. split; [reflexivity|]. split; [reflexivity|]. eexists. vm_compute. reflexivity. }
  destruct C as (d & Ed & En & Ep & it & Ei). apply iterator_new_opens in Ei as (st & t & g & Ho & _). exists d, st. do 3 (split; [assumption|]).
  pose proof Ho as (a & x & _ & Ea & Et & Eg & _). rewrite En in Ea. assert (Q : a = a_good) by (assert (K : a_world all_good "r/a.SC2Replay" = Ok a_good) by reflexivity; congruence). subst a.
  assert (Q : t = r_t) by (assert (K : ar_sector a_good "replay.tracker.events" = Ok r_t) by reflexivity; congruence).
  assert (Q' : g = r_g) by (assert (K : ar_sector a_good "replay.game.events" = Ok r_g) by reflexivity; congruence). rewrite <- Q, <- Q'. exact Ho.
Qed.
Example C97_sectors : exists d st, opens (mc_build ex_mc) (a_world all_good) a_balance d st r_t r_g /\ sectors_of ex_mc (iterator_proto d) r_tevs r_t r_gevs r_g /\ length r_tevs = 11%nat /\
  section_of ex_mc (a_world all_good) a_balance no_options a_good d RTracker (snd (get_first no_options RTracker)) /\ length (snd (get_first no_options RTracker)) = 13%nat.
Proof.
  destruct first_opens as (d & st & Ed & _ & Ep & Ho). exists d, st. split; [exact Ho|]. split; [rewrite Ep; exact r_sectors|]. split; [reflexivity|].
  split; [apply first_section; [exact Ed|vm_compute; reflexivity]|vm_compute; reflexivity].
Qed.

(** C98.  False that the filter options apply to the listings: there they have no
    effect at all ... *)
Theorem C98_listings_refuted : forall mc t w all c c' r source, r <> RTransist -> handle_get_cmd mc t w all c r source = handle_get_cmd mc t w all c' r source.
Proof. exact get_options. Qed.
Print Assumptions C98_listings_refuted.
Definition min_1000 : cli := mk_cli None (Some 1000) None None None None true false.
Definition early (k : token) : bool := match k with KEvent i => match it_event i with ETracker l _ => l <? 1000 | _ => false end | _ => false end.
Lemma has_early : forall p : printed, fst p = Ok tt -> existsb early (snd p) = true -> exists out i, p = (Ok tt, out) /\ In (KEvent i) out /\ exists l e, it_event i = ETracker l e /\ l < 1000.
Proof.
  intros [o l] F E. cbn [fst snd] in *. subst o. apply existsb_exists in E as ([| | |i| | |] & Hk & E); try discriminate E. exists l, i. split; [reflexivity|]. split; [exact Hk|].
  cbn [early] in E. destruct (it_event i) as [l' e|]; [|discriminate]. exists l', e. split; [reflexivity|]. now apply Z.ltb_lt.
Qed.
(** ... so that hidden events are printed. *)
Lemma early_runs : fst (handle_get_cmd ex_mc three_files (a_world all_good) a_balance min_1000 RTracker ["r"]) = Ok tt.
Proof. vm_compute. reflexivity. Qed.
Lemma early_there : existsb early (snd (handle_get_cmd ex_mc three_files (a_world all_good) a_balance min_1000 RTracker ["r"])) = true.
Proof. vm_compute. reflexivity. Qed.
Theorem C98_hidden_refuted : exists mc t w all c source out i, world_bytes w /\ handle_get_cmd mc t w all c RTracker source = (Ok tt, out) /\ In (KEvent i) out /\ hidden_by c i.
Proof.
  destruct (has_early _ early_runs early_there) as (out & i & E & Hi & l & e & El & Hl). exists ex_mc, three_files, (a_world all_good), a_balance, min_1000, ["r"], out, i.
  split; [exact good_world|]. split; [exact E|]. split; [exact Hi|]. unfold hidden_by. rewrite El. left. exists 1000. split; [reflexivity|exact Hl].
Qed.
Print Assumptions C98_hidden_refuted.
(** [--event-type] has no effect anywhere. *)
Theorem C98_type_refuted : forall mc t w all p a b u n s q ty r source,
  handle_get_cmd mc t w all (mk_cli p a b ty u n s q) r source = handle_get_cmd mc t w all (mk_cli p a b None u n s q) r source.
Proof. intros mc t w all p a b u n s q ty r source. exact (get_type_ignored mc t w all (mk_cli p a b None u n s q) ty r source). Qed.
Print Assumptions C98_type_refuted.
(** [transist-events] applies the others: of all the events it prints those that
    are not hidden, in order, one less than [--max-events]. *)
Theorem C98_transist_partial : forall mc w all c a d st t g its, world_bytes w -> (forall n, cl_events c = Some n -> 0 <= n) -> opens (mc_build mc) w all d st t g ->
  delivers_all mc (iterator_proto d) (merge_start st t g None) its ->
  exists shown, shown_by c its shown /\
    get_one mc w all c RTransist a d = (Ok tt, if cl_quiet c then [] else [KOpen] ++ flat_map (fun i => [KEvent i; KComma]) shown ++ [KClose]).
Proof. exact transist_filtered. Qed.
Print Assumptions C98_transist_partial.
Definition some_options : cli := mk_cli None (Some 4) (Some 8) (Some "x") (Some "SCV") (Some 4) false false.
Example C98_example : exists d st its, opens (mc_build ex_mc) (a_world all_good) a_balance d st r_t r_g /\ delivers_all ex_mc (iterator_proto d) (merge_start st r_t r_g None) its /\
  length (filter of_tracker_events its) = 11%nat /\ length (filter is_value (snd (get_first some_options RTransist))) = 3%nat.
Proof.
  destruct first_opens as (d & st & Ed & _ & Ep & Ho). assert (F : fst (get_first no_options RTracker) = Ok tt) by (vm_compute; reflexivity).
  assert (L : length (snd (get_first no_options RTracker)) = 13%nat) by (vm_compute; reflexivity).
  pose proof (first_section d no_options RTracker Ed F) as S. revert S L. generalize (snd (get_first no_options RTracker)). intros out S L. inversion S as [st' t' g' its Ho' D E| | | | |]. subst out.
  assert (Q : t' = r_t /\ g' = r_g /\ st' = st).
  { destruct Ho as (a & x & _ & Ea & Et & Eg & Ex & Es). destruct Ho' as (a' & x' & _ & Ea' & Et' & Eg' & Ex' & Es'). assert (K : a = a') by congruence. subst a'. assert (K : x = x') by congruence. subst x'.
    split; [congruence|]. split; congruence. }
  destruct Q as (-> & -> & ->). exists d, st, its. split; [exact Ho|]. split; [exact D|]. split; [|vm_compute; reflexivity].
  cbn [length] in L. rewrite app_length, map_length in L. cbn [length] in L. lia.
Qed.

(** C99.  False that the output for a replay is JSON: the events of a listing are
    not separated, those of [transist-events] are, but with a comma after the
    last. *)
Fixpoint well_separated (l : list token) : bool :=
  match l with
  | a :: (b :: _) as l' => negb (is_value a && is_value b) && (match a, b with KComma, KClose => false | _, _ => true end) && well_separated l'
  | _ => true
  end.
Lemma rest_separated : forall l, array_rest l -> well_separated l = true /\ exists k l', l = k :: l' /\ is_value k = false.
Proof.
  induction 1 as [|v l Hv Hr [IH (k & l' & -> & Hk)]]; [split; [reflexivity|exists KClose, []; split; reflexivity]|]. split; [|eexists _, _; split; reflexivity].
  change (well_separated (KComma :: v :: k :: l')) with (negb (is_value KComma && is_value v) && (match KComma, v with KComma, KClose => false | _, _ => true end) && (negb (is_value v && is_value k) && (match v, k with KComma, KClose => false | _, _ => true end) && well_separated (k :: l'))).
  rewrite IH, Hk, Bool.andb_false_r. destruct v; try discriminate Hv; reflexivity.
Qed.
Lemma json_separated : forall l, json_text l -> well_separated l = true.
Proof.
  intros l [J|(v & Hv & ->)]; [|reflexivity]. inversion J as [|v l' Hv Hr]; subst; [reflexivity|]. destruct (rest_separated l' Hr) as [E (k & l & -> & Hk)].
  change (well_separated (KOpen :: v :: k :: l)) with (negb (is_value KOpen && is_value v) && true && (negb (is_value v && is_value k) && (match v, k with KComma, KClose => false | _, _ => true end) && well_separated (k :: l))).
  rewrite E, Hk, Bool.andb_false_r. destruct v; try discriminate Hv; reflexivity.
Qed.
Lemma not_json : forall p : printed, fst p = Ok tt -> well_separated (snd p) = false -> exists out, p = (Ok tt, out) /\ ~ json_text out.
Proof. intros [o l] F E. cbn [fst snd] in *. subst o. exists l. split; [reflexivity|]. intros J. apply json_separated in J. congruence. Qed.
(** One replay is asked for. *)
Theorem C99_json_refuted : exists mc t w all c source, world_bytes w /\ sources_of t source [source] /\
  Forall (fun r => exists out, handle_get_cmd mc t w all c r source = (Ok tt, out) /\ ~ json_text out) [RTracker; RGame; RTransist].
Proof.
  exists ex_mc, three_files, (a_world all_good), a_balance, no_options, ["r"; "a.SC2Replay"]. split; [exact good_world|].
  split; [right; split; [intros es; discriminate|reflexivity]|].
  repeat (constructor; [apply not_json; vm_compute; reflexivity|]). constructor.
Qed.
Print Assumptions C99_json_refuted.
(** The section of one replay is JSON just when it is that of the details or the
    initial data, a listing of at most one event or message, or an empty one of
    [transist-events]. *)
Theorem C99_section_partial : forall mc w all c a d r out, section_of mc w all c a d r out ->
  (json_text out <-> match r with
    | RTracker | RGame | RMessages => (length (filter is_value out) <= 1)%nat
    | RDetails | RInit => True
    | RTransist => cl_quiet c = false /\ filter is_value out = []
    end).
Proof. exact section_json. Qed.
Print Assumptions C99_section_partial.
(** One without messages has a listing that is JSON. *)
Example C99_example : exists d out, section_of ex_mc (a_world all_good) a_balance no_options a_good d RInit out /\ length (filter is_value out) = 1%nat /\ json_text out.
Proof.
  destruct first_opens as (d & st & Ed & _). exists d, [KInit d]. split; [constructor|]. split; [reflexivity|]. right. exists (KInit d). split; reflexivity.
Qed.

(** C100.  False that directories are searched recursively ... *)
Definition deep_tree : tree := fun p => match p with ["r"] => NDir (Some [Some "d"]) | ["r"; "d"] => NDir (Some [Some "a.SC2Replay"]) | [_; _; _] => NFile | _ => NOther end.
Definition deep_world : world := a_world [("r/d/a.SC2Replay", a_good)].
Theorem C100_recursive_refuted : exists mc t w all c source names d, world_bytes w /\ replay_below t source names /\ init_try_from (mc_build mc) w (source ++ names) 0 = Ok d /\
  forall r, handle_get_cmd mc t w all c r source = (Ok tt, []).
Proof.
  assert (X : exists d, init_try_from (mc_build ex_mc) deep_world (["r"] ++ ["d"; "a.SC2Replay"]) 0 = Ok d) by (eexists; vm_compute; reflexivity).
  destruct X as (d & Ed). exists ex_mc, deep_tree, deep_world, a_balance, no_options, ["r"], ["d"; "a.SC2Replay"], d.
  split; [apply a_world_bytes; repeat constructor; cbn [snd]; apply good_bytes|]. split; [|split; [exact Ed|intros []; reflexivity]].
  eapply below_dir; [reflexivity|left; reflexivity|]. eapply below_file; [reflexivity|left; reflexivity|reflexivity|reflexivity].
Qed.
Print Assumptions C100_recursive_refuted.
(** ... that only SC2Replay files are read ... *)
Definition saved_world : world := a_world [("r/a.txt", a_good)].
Theorem C100_extension_refuted : exists mc t w all c source, world_bytes w /\ (forall names, ~ replay_below t source names) /\
  exists d, handle_get_cmd mc t w all c RInit source = (Ok tt, [KInit d]).
Proof.
  exists ex_mc, (a_tree ["a.txt"]), saved_world, a_balance, no_options, ["r"]. split; [apply a_world_bytes; repeat constructor; cbn [snd]; apply good_bytes|]. split; [|eexists; vm_compute; reflexivity].
  intros names B. inversion B as [s es n Es Hi Hf Hr|s es n ns Es Hi Hb]; subst; cbn in Es; injection Es as <-; destruct Hi as [Q|[]]; injection Q as <-; [vm_compute in Hr; discriminate|].
  inversion Hb as [s es n Es Hi' Hf Hr|s es n ns' Es Hi' Hb']; subst; discriminate Es.
Qed.
Print Assumptions C100_extension_refuted.
(** ... that one bad file does not keep the others from being shown ... *)
Definition first_bad : world := a_world [("r/a.SC2Replay", a_other); ("r/c.SC2Replay", a_good)].
Theorem C100_bad_refuted : exists mc t w all c source l p d, world_bytes w /\ sources_of t source l /\ In p l /\ init_try_from (mc_build mc) w p 0 = Ok d /\
  forall r, handle_get_cmd mc t w all c r source = (Panic, []).
Proof.
  assert (X : exists d, init_try_from (mc_build ex_mc) first_bad ["r"; "c.SC2Replay"] 0 = Ok d) by (eexists; vm_compute; reflexivity).
  destruct X as (d & Ed). exists ex_mc, three_files, first_bad, a_balance, no_options, ["r"], [["r"; "a.SC2Replay"]; ["r"; "b.SC2Replay"]; ["r"; "c.SC2Replay"]], ["r"; "c.SC2Replay"], d.
  split; [apply a_world_bytes; repeat constructor; cbn [snd]; first [apply good_bytes|apply other_bytes]|].
  split; [apply get_sources_spec; vm_compute; reflexivity|]. split; [right; right; left; reflexivity|]. split; [exact Ed|]. intros []; vm_compute; reflexivity.
Qed.
Print Assumptions C100_bad_refuted.
(** ... and that a source that is not there is reported as a failure. *)
Theorem C100_missing_refuted : exists mc t w all c source, (forall n, w n = Err (EOther "io")) /\ t source = NOther /\ forall r, handle_get_cmd mc t w all c r source = (Ok tt, []).
Proof. exists ex_mc, (fun _ => NOther), (fun _ => Err (EOther "io")), a_balance, no_options, ["x"]. split; [reflexivity|]. split; [reflexivity|]. intros []; reflexivity. Qed.
Print Assumptions C100_missing_refuted.
(** The files read are those directly in the directory.  A run that does not end
    well cannot list the directory, or stops at one of them: at the first for
    which one of the reasons of [stops_at] holds, after having printed the parts
    of those before and a beginning of its own. *)
Theorem C100_stops_partial : forall mc t w all c r source o out, world_bytes w -> handle_get_cmd mc t w all c r source = (o, out) -> o <> Ok tt ->
  (exists es, t source = NDir es /\ (es = None \/ exists l, es = Some l /\ In None l) /\ out = []) \/
  exists l before p after parts last, sources_of t source l /\ l = before ++ p :: after /\ Forall2 (part_of mc w all c r) before parts /\ stops_at mc w all c r p o last /\ out = concat parts ++ last.
Proof. exact get_stops. Qed.
Print Assumptions C100_stops_partial.
(** One that breaks off the iteration: the events before have been printed. *)
Definition last_breaks : world := a_world [("r/a.SC2Replay", a_good); ("r/c.SC2Replay", a_breaks)].
Example C100_example : world_bytes last_breaks /\
  (fst (handle_get_cmd ex_mc three_files last_breaks a_balance no_options RTracker ["r"]) = Panic) /\
  (length (snd (handle_get_cmd ex_mc three_files last_breaks a_balance no_options RTracker ["r"])) > 13)%nat.
Proof.
  split; [apply a_world_bytes; repeat constructor; cbn [snd]; first [apply good_bytes|apply breaks_bytes]|]. split; [vm_compute; reflexivity|].
  apply Nat.ltb_lt. vm_compute. reflexivity.
Qed.

(** C101.  False that [get details] shows the date of the replay that
    [Details::new] gives (C74). *)
Theorem C101_date_refuted : exists mc w all c a d x y, archive_bytes a /\ file_details (mc_build mc) 0 a = Ok x /\
  get_one mc w all c RDetails a d = (Ok tt, [KDetails y]) /\ xd_datetime x <> xd_datetime y.
Proof.
  assert (X : exists x, file_details (mc_build ex_mc) 0 a_good = Ok x /\ xd_datetime x <> (0, 0)).
  { eexists. split; [vm_compute; reflexivity|]. intros Q. vm_compute in Q. discriminate. }
  assert (Y : exists y, file_raw_details (mc_build ex_mc) a_good = Ok y) by (eexists; vm_compute; reflexivity).
  destruct X as (x & Ex & Hx). destruct Y as (y & Ey). destruct first_opens as (d & _). exists ex_mc, (a_world all_good), a_balance, no_options, a_good, d, x, y.
  split; [exact good_bytes|]. split; [exact Ex|]. split; [unfold get_one; rewrite Ey; reflexivity|]. apply raw_details_ok in Ey as (_ & _ & _ & _ & _ & _ & _ & _ & -> & _); [exact Hx|exact good_bytes].
Qed.
Print Assumptions C101_date_refuted.
(** It shows the rest of the details sector, always with 1970-01-01 as the date
    and 0 as the file id. *)
Theorem C101_details_partial : forall mc w all c a d out, archive_bytes a -> get_one mc w all c RDetails a d = (Ok tt, out) ->
  exists x b l r v, out = [KDetails x] /\ header_of (mc_build mc) a signature_text b /\ ar_sector a "replay.details" = Ok l /\ vparse (mc_build mc) ba_GameSDetails l = Ok (r, v) /\
    details_shown v x /\ xd_datetime x = (0, 0) /\ xd_fs_id x = 0.
Proof.
  intros mc w all c a d out Ha E. cbn [get_one] in E. destruct (file_raw_details (mc_build mc) a) as [x|e|] eqn:Ex; cbn [use stop] in E; try discriminate. injection E as <-.
  apply raw_details_ok in Ex as (b & l & r & v & Hb & El & Ev & Hs & Hd & Hi); [|exact Ha]. exists x, b, l, r, v. auto 7.
Qed.
Print Assumptions C101_details_partial.
Example C101_example : exists x, file_raw_details Checked a_good = Ok x /\ xd_title x = "TO" /\ length (xd_player_list x) = 3%nat.
Proof. eexists. split; [vm_compute; reflexivity|]. split; reflexivity. Qed.
