(** * Facts about [get] *)
From Verif Require Import Base Types Utf8 ConvertSpec Dispatch Events Iterators BitSpec BitProofs ByteTypes Versioned Stream StreamFacts StreamSpec IteratorFacts IteratorStreams Balance Lobby DetailsData DetailsSpec DetailsFacts Typed
  State StateSpec StateFacts StateProofs Merge MergeSpec MergeFacts MergeStreams MergeProofs Rows RowSpec RowFacts Files Archive ArchiveSpec ArchiveFacts SnapshotFacts Cli CliSpec.
From Verif Require Import Convert.
#[local] Open Scope string_scope.
#[local] Open Scope Z_scope.
#[local] Open Scope list_scope.

(** ** The loop that prints *)
Section Print.
  Variables (mc : machine) (p : proto) (show : item -> list token).
  Lemma print_fuel_cases : forall n it, good it -> (left_over it < n)%nat ->
    (exists its, delivers_all mc p it its /\ print_fuel mc p show n it = (Ok tt, flat_map show its)) \/
    (exists its, delivers_then_panics mc p it its /\ print_fuel mc p show n it = (Panic, flat_map show its)).
  Proof.
    induction n as [|n IH]; intros it Hg Hn; [lia|]. cbn [print_fuel]. unfold use. destruct (merge_next mc p it) as [[[i|] it']|e|] eqn:E; cbn [fst snd].
    - assert (Hl := merge_left mc p _ _ _ Hg E). assert (Hg' : good it') by (eapply next_good; eauto).
      destruct (IH it' Hg') as [(its & (it2 & D) & P)|(its & (it2 & D & Q) & P)]; [lia| |].
      + left. exists (i :: its). split.
        * exists it2. change (S (length (i :: its))) with (S (S (length its))). remember (S (length its)) as k. cbn [merge_calls]. rewrite E. cbn [obind]. rewrite D. reflexivity.
        * unfold andthen, print. cbn [fst snd flat_map]. rewrite P. reflexivity.
      + right. exists (i :: its). split.
        * exists it2. split; [|exact Q]. cbn [length merge_calls]. rewrite E. cbn [obind]. rewrite D. reflexivity.
        * unfold andthen, print. cbn [fst snd flat_map]. rewrite P. reflexivity.
    - left. exists []. split; [|reflexivity]. exists it'. cbn [length merge_calls]. rewrite E. reflexivity.
    - destruct (merge_no_err mc p (left_over it) it (le_n _) Hg e E).
    - right. exists []. split; [|reflexivity]. exists it. split; [reflexivity|exact E].
  Qed.
  Lemma print_items_cases : forall it, good it ->
    (exists its, delivers_all mc p it its /\ print_items mc p show it = (Ok tt, flat_map show its)) \/
    (exists its, delivers_then_panics mc p it its /\ print_items mc p show it = (Panic, flat_map show its)).
  Proof. intros it Hg. apply print_fuel_cases; [exact Hg|lia]. Qed.
End Print.
Lemma calls_app : forall mc p a b it, merge_calls mc p (a + b) it = do (l, it1) <- merge_calls mc p a it; do (l', it2) <- merge_calls mc p b it1; Ok (l ++ l', it2).
Proof.
  intros mc p. induction a as [|a IH]; intros b it; cbn [merge_calls Nat.add].
  - cbn [obind]. destruct (merge_calls mc p b it) as [[l i]| |]; reflexivity.
  - destruct (merge_next mc p it) as [[r it1]| |]; cbn [obind]; try reflexivity. rewrite IH. destruct (merge_calls mc p a it1) as [[l it2]| |]; cbn [obind]; try reflexivity.
    destruct (merge_calls mc p b it2) as [[l' it3]| |]; reflexivity.
Qed.
Lemma calls_length : forall mc p n it l it', merge_calls mc p n it = Ok (l, it') -> length l = n.
Proof.
  intros mc p. induction n as [|n IH]; intros it l it' E; cbn [merge_calls] in E; [injection E as <- <-; reflexivity|].
  apply obind_ok in E as ([r it1] & _ & E). apply obind_ok in E as ([rs it2] & E2 & E). injection E as <- <-. cbn. f_equal. eapply IH; eauto.
Qed.
(** A beginning of the answers. *)
Lemma calls_prefix : forall mc p l l' it it', merge_calls mc p (length (l ++ l')) it = Ok (l ++ l', it') -> exists it1, merge_calls mc p (length l) it = Ok (l, it1).
Proof.
  intros mc p l l' it it' E. rewrite app_length, calls_app in E. apply obind_ok in E as ([a it1] & E1 & E). apply obind_ok in E as ([b it2] & E2 & E). injection E as E _.
  pose proof (calls_length _ _ _ _ _ _ E1) as L. exists it1. rewrite E1. f_equal. f_equal.
  assert (X : firstn (length l) (a ++ b) = firstn (length l) (l ++ l')) by (rewrite E; reflexivity). rewrite !firstn_app, L, Nat.sub_diag, !firstn_all in X. rewrite <- L, firstn_all in X. cbn in X. rewrite !app_nil_r in X. exact X.
Qed.
Lemma delivers_collect : forall mc p it its, good it -> delivers_all mc p it its -> collect mc p it = Ok its.
Proof.
  intros mc p it its Hg D. unfold collect. assert (G : forall its n it, good it -> (left_over it < n)%nat -> delivers_all mc p it its -> collect_fuel mc p n it = Ok its); [|apply G; [exact Hg|lia|exact D]].
  clear. induction its as [|i its IH]; intros n it Hg Hn (it' & D); (destruct n as [|n]; [lia|]); cbn [collect_fuel].
  - cbn [length merge_calls] in D. destruct (merge_next mc p it) as [[r it1]| |]; cbn [obind] in *; try discriminate. injection D as -> <-. reflexivity.
  - change (S (length (i :: its))) with (S (S (length its))) in D. remember (S (length its)) as k. cbn [merge_calls] in D. destruct (merge_next mc p it) as [[r it1]| |] eqn:E; cbn [obind] in *; try discriminate.
    apply obind_ok in D as ([rs it2] & D & Q). injection Q as -> Q <-. rewrite (IH n it1); [reflexivity|eapply next_good; eauto| |exists it2; subst k rs; exact D].
    pose proof (merge_left mc p _ _ _ Hg E). lia.
Qed.
Lemma delivers_unique : forall mc p it a b, good it -> delivers_all mc p it a -> delivers_all mc p it b -> a = b.
Proof. intros mc p it a b Hg A B. apply delivers_collect in A; [|exact Hg]. apply delivers_collect in B; [|exact Hg]. congruence. Qed.

(** ** One file *)
Lemma flat_map_wanted : forall (f g : item -> bool) l, (forall i, f i = g i) -> flat_map (fun i => if f i then [KEvent i] else []) l = map KEvent (filter g l).
Proof. intros f g l E. induction l as [|i l IH]; cbn; [reflexivity|]. rewrite E, IH. destruct (g i); reflexivity. Qed.
Lemma flat_map_nothing : forall (l : list item), flat_map (fun _ => @nil token) l = [].
Proof. induction l; cbn; auto. Qed.
Lemma raw_details_ok : forall m a x, archive_bytes a -> file_raw_details m a = Ok x ->
  exists b l r v, header_of m a signature_text b /\ ar_sector a "replay.details" = Ok l /\ vparse m ba_GameSDetails l = Ok (r, v) /\ details_shown v x /\ xd_datetime x = (0, 0) /\ xd_fs_id x = 0.
Proof.
  intros m a x Ha E. unfold file_raw_details in E. apply obind_ok in E as (b & Eb & E). apply obind_ok in E as (l & El & E).
  assert (E' : (do (r, v) <- vparse m ba_GameSDetails l; details_from v) = Ok x) by (destruct (dispatch_details b); exact E). clear E. apply obind_ok in E' as ([r v] & Ev & E).
  apply checked_header_ok in Eb; [|exact Ha]. exists b, l, r, v. split; [exact Eb|]. split; [exact El|]. split; [exact Ev|].
  assert (Hv := proj2 (vparse_typed m ba_GameSDetails eq_refl l r v (proj2 Ha _ _ El) Ev)). pose proof (details_conv v Hv) as C. unfold conv_at in C. rewrite E in C. split; [apply C|].
  unfold details_from in E. repeat (apply obind_ok in E as (? & _ & E)). injection E as <-. split; reflexivity.
Qed.
Lemma opens_good_with : forall m w all d st t g f, world_bytes w -> opens m w all d st t g -> good (merge_start st t g f).
Proof. intros m w all d st t g f Hw Ho. exact (opens_good m w all d st t g Hw Ho). Qed.
Lemma get_one_ok : forall mc w all c r a d out, world_bytes w -> archive_bytes a -> get_one mc w all c r a d = (Ok tt, out) -> section_of mc w all c a d r out.
Proof.
  intros mc w all c r a d out Hw Ha E. destruct r; cbn [get_one] in E.
  - destruct (iterator_new (mc_build mc) w d all) as [it|e|] eqn:Ei; cbn [use stop] in E; try discriminate. apply iterator_new_opens in Ei as (st & t & g & Ho & ->).
    destruct (print_items_cases mc (iterator_proto d) (fun i => if is_tracker_event i then [KEvent i] else []) _ (opens_good _ _ _ _ _ _ _ Hw Ho)) as [(its & D & P)|(its & D & P)]; rewrite P in E; [|discriminate].
    unfold andthen, print in E. cbn [fst snd] in E. injection E as <-. rewrite (flat_map_wanted _ of_tracker_events) by reflexivity. cbn [app]. eapply sec_tracker; eassumption.
  - destruct (iterator_new (mc_build mc) w d all) as [it|e|] eqn:Ei; cbn [use stop] in E; try discriminate. apply iterator_new_opens in Ei as (st & t & g & Ho & ->).
    destruct (print_items_cases mc (iterator_proto d) (fun i => if is_game_event i then [KEvent i] else []) _ (opens_good _ _ _ _ _ _ _ Hw Ho)) as [(its & D & P)|(its & D & P)]; rewrite P in E; [|discriminate].
    unfold andthen, print in E. cbn [fst snd] in E. injection E as <-. rewrite (flat_map_wanted _ of_game_events) by reflexivity. cbn [app]. eapply sec_game; eassumption.
  - destruct (file_message_events (mc_build mc) a) as [l|e|] eqn:El; cbn [use stop] in E; try discriminate. injection E as <-. apply sec_messages, El.
  - destruct (file_raw_details (mc_build mc) a) as [x|e|] eqn:Ex; cbn [use stop] in E; try discriminate. injection E as <-. apply raw_details_ok in Ex as (b & l & r & v & Hb & El & Ev & Hs & _); [|exact Ha].
    eapply sec_details; eassumption.
  - injection E as <-. constructor.
  - destruct (iterator_new (mc_build mc) w d all) as [it|e|] eqn:Ei; cbn [use stop] in E; try discriminate. apply iterator_new_opens in Ei as (st & t & g & Ho & ->).
    change (with_filters (Some (filters_of_cli c)) (merge_start st t g None)) with (merge_start st t g (Some (filters_of_cli c))) in E.
    destruct (print_items_cases mc (iterator_proto d) (fun i => if cl_quiet c then [] else [KEvent i; KComma]) _ (opens_good_with _ _ _ _ _ _ _ (Some (filters_of_cli c)) Hw Ho)) as [(its & D & P)|(its & D & P)]; rewrite P in E; [|discriminate].
    unfold andthen, print in E. cbn [fst snd] in E. injection E as <-.
    pose proof (sec_transist mc w all c a d st t g its Ho D) as X. destruct (cl_quiet c); [rewrite flat_map_nothing; exact X|exact X].
Qed.
Lemma get_source_ok : forall mc w all c r p out, world_bytes w -> get_source mc w all c r p = (Ok tt, out) -> part_of mc w all c r p out.
Proof.
  intros mc w all c r p out Hw E. unfold get_source in E. destruct (open_file w (path_string p)) as [a|e|] eqn:Ea; [| |discriminate].
  - apply open_file_ok in Ea as [Ea Hn]. destruct (path_text_spec p) as [[Et Hu]|[Et Hu]]; rewrite Et in E; [|discriminate].
    destruct (file_init (mc_build mc) (path_string p) 0 a) as [d|e|] eqn:Ed; cbn [use stop] in E; try discriminate.
    assert (Ha := Hw _ _ Ea). apply file_init_says in Ed as (Hs & Hi & Hf); [|exact Ha]. eapply part_section; try eassumption. eapply get_one_ok; eassumption.
  - injection E as <-. apply part_skipped. unfold open_file in Ea. destruct (String.eqb_spec (path_string p) ""); [left; assumption|right; eauto].
Qed.

(** ** The sources *)
Lemma entry_files_ok : forall t source es l, entry_files t source es = Ok l -> exists names, es = map Some names /\
  l = map (fun n => source ++ [n]) (filter (fun n => is_file t (source ++ [n])) names).
Proof.
  intros t source es. induction es as [|[n|] es IH]; intros l E; cbn [entry_files] in E; [injection E as <-; exists []; auto| |discriminate].
  apply obind_ok in E as (ps & Ep & E). injection E as <-. destruct (IH ps Ep) as (names & -> & ->). exists (n :: names). split; [reflexivity|]. cbn [filter]. destruct (is_file t (source ++ [n])); reflexivity.
Qed.
Lemma entry_files_some : forall t source names, entry_files t source (map Some names) = Ok (map (fun n => source ++ [n]) (filter (fun n => is_file t (source ++ [n])) names)).
Proof. intros t source names. induction names as [|n names IH]; [reflexivity|]. cbn [map entry_files]. rewrite IH. cbn [obind filter]. destruct (is_file t (source ++ [n])); reflexivity. Qed.
Lemma is_file_spec : forall t p, is_file t p = true <-> t p = NFile.
Proof. intros t p. unfold is_file. destruct (t p); split; congruence. Qed.
Lemma get_sources_spec : forall t source l, get_sources t source = Ok l <-> sources_of t source l.
Proof.
  intros t source l. unfold get_sources, sources_of. destruct (t source) as [[es|]| |] eqn:Et.
  - split.
    + intros E. apply entry_files_ok in E as (names & -> & ->). left. exists names. split; [reflexivity|]. exists (fun n => is_file t (source ++ [n])). split; [|reflexivity]. intros n. apply is_file_spec.
    + intros [(names & Q & f & Hf & ->)|[Q _]]; [|edestruct Q; reflexivity]. injection Q as ->. rewrite entry_files_some.
      apply (f_equal (fun x => Ok (map (fun n => source ++ [n]) x))). apply filter_ext.
      intros n. destruct (f n) eqn:Ef; [apply Hf in Ef; apply is_file_spec; exact Ef|]. destruct (is_file t (source ++ [n])) eqn:Ei; [|reflexivity]. apply is_file_spec, Hf in Ei. congruence.
  - split; [discriminate|]. intros [(names & Q & _)|[Q _]]; [discriminate|edestruct Q; reflexivity].
  - split; [intros Q; injection Q as <-; right; split; [discriminate|reflexivity]|]. intros [(names & Q & _)|[_ ->]]; [discriminate|reflexivity].
  - split; [intros Q; injection Q as <-; right; split; [discriminate|reflexivity]|]. intros [(names & Q & _)|[_ ->]]; [discriminate|reflexivity].
Qed.
Lemma get_sources_err : forall t source e, get_sources t source = Err e -> exists es, t source = NDir es /\ (es = None \/ exists l, es = Some l /\ In None l).
Proof.
  intros t source e. unfold get_sources. destruct (t source) as [[es|]| |] eqn:Et; try discriminate; [|eauto].
  intros E. exists (Some es). split; [reflexivity|]. right. exists es. split; [reflexivity|]. clear Et. revert E. induction es as [|[n|] es IH]; cbn [entry_files]; [discriminate| |left; reflexivity].
  destruct (entry_files t source es); cbn [obind]; [discriminate| |discriminate]. intros Q. injection Q as ->. right. apply IH. reflexivity.
Qed.

(** ** All of them *)
Lemma andthen_ok : forall a b out, andthen a b = (Ok tt, out) <-> exists x y, a = (Ok tt, x) /\ b = (Ok tt, y) /\ out = x ++ y.
Proof.
  intros [[[]|e|] x] [o y] out; unfold andthen; cbn [fst snd]; split; try discriminate.
  - intros Q. injection Q as -> <-. eauto.
  - intros (x' & y' & A & B & ->). injection A as <-. injection B as -> <-. reflexivity.
  - intros (x' & y' & A & _). discriminate.
  - intros (x' & y' & A & _). discriminate.
Qed.
Lemma get_loop_ok : forall mc w all c r l out, get_loop mc w all c r l = (Ok tt, out) <->
  exists parts, Forall2 (fun p part => get_source mc w all c r p = (Ok tt, part)) l parts /\ out = concat parts.
Proof.
  intros mc w all c r l. induction l as [|p l IH]; intros out; cbn [get_loop].
  - split; [intros Q; injection Q as <-; exists []; auto|]. intros (parts & F & ->). inversion F; subst. reflexivity.
  - rewrite andthen_ok. split.
    + intros (x & y & A & B & ->). apply IH in B as (parts & F & ->). exists (x :: parts). auto.
    + intros (parts & F & ->). inversion F as [|? x ? ps Hx Hf]; subst. exists x, (concat ps). split; [exact Hx|]. split; [apply IH; eauto|reflexivity].
Qed.
Lemma get_ok : forall mc t w all c r source out, world_bytes w -> handle_get_cmd mc t w all c r source = (Ok tt, out) ->
  exists l parts, sources_of t source l /\ Forall2 (part_of mc w all c r) l parts /\ out = concat parts.
Proof.
  intros mc t w all c r source out Hw E. unfold handle_get_cmd in E. destruct (get_sources t source) as [l|e|] eqn:Es; cbn [use stop] in E; try discriminate.
  apply get_sources_spec in Es. apply get_loop_ok in E as (parts & F & ->). exists l, parts. split; [exact Es|]. split; [|reflexivity].
  clear Es. induction F as [|p part l parts Hp F IH]; constructor; [|exact IH]. now apply get_source_ok.
Qed.
(** It stops at the first source that does not end well. *)
Lemma get_loop_stops : forall mc w all c r l o out, get_loop mc w all c r l = (o, out) -> o <> Ok tt ->
  exists before p after parts last, l = before ++ p :: after /\ Forall2 (fun p part => get_source mc w all c r p = (Ok tt, part)) before parts /\
    get_source mc w all c r p = (o, last) /\ out = concat parts ++ last.
Proof.
  intros mc w all c r l. induction l as [|p l IH]; intros o out E Ho; cbn [get_loop] in E; [injection E as <- _; congruence|].
  destruct (get_source mc w all c r p) as [[[]|e|] x] eqn:Ep; unfold andthen in E; cbn [fst snd] in E.
  - destruct (get_loop mc w all c r l) as [o' y] eqn:El. cbn [fst snd] in E. injection E as -> <-. destruct (IH o y eq_refl Ho) as (before & q & after & parts & lst & -> & F & Eq & ->).
    exists (p :: before), q, after, (x :: parts), lst. split; [reflexivity|]. split; [constructor; assumption|]. split; [exact Eq|]. cbn [concat]. rewrite app_assoc. reflexivity.
  - injection E as <- <-. exists [], p, l, [], x. repeat split; auto.
  - injection E as <- <-. exists [], p, l, [], x. repeat split; auto.
Qed.
Lemma andthen_stops : forall a b o out, andthen a b = (o, out) -> o <> Ok tt -> a = (o, out) \/ exists x y, a = (Ok tt, x) /\ b = (o, y) /\ out = x ++ y.
Proof. intros [[[]|e|] x] [o' y] o out E Ho; unfold andthen in E; cbn [fst snd] in E; [right; injection E as -> <-; eauto|left; exact E|left; exact E]. Qed.

(** ** What the events are *)
Lemma cmd_loop_names : forall b gl other tags cmd units, 
  without_names (EGame 0 0 None (GCmd (fst (snd (cmd_loop b gl other tags cmd units))))) = without_names (EGame 0 0 None (GCmd cmd)).
Proof.
  intros b gl other tags. induction tags as [|t tags IH]; intros cmd units; cbn [cmd_loop]; [reflexivity|].
  destruct (Maps.mget (Tags.unit_tag_index t) units) as [u|]; [|apply IH]. destruct (cm_abil cmd) as [a|] eqn:Ea; [|apply IH]. cbv zeta.
  match goal with |- context [cmd_loop b gl other tags ?x ?y] => specialize (IH x y); destruct (cmd_loop b gl other tags x y) as [us [c' l]] end. cbn [fst snd] in *.
  rewrite IH. cbn. rewrite Ea. reflexivity.
Qed.
Lemma game_names : forall mc st l u n e st' it, handle_transition mc st (EGame l u n e) = Ok (st', it) -> without_names (it_event it) = without_names (EGame l u n e).
Proof.
  intros mc st l u n e st' it E. apply transition_game in E as (e' & h & E & ->). cbn [it_event].
  assert (Same : e' = e -> without_names (EGame l u n e') = without_names (EGame l u n e)) by (intros ->; reflexivity).
  destruct e; cbn [handle_game_event] in E; try (injection E as _ <- _; apply Same; reflexivity).
  - unfold handle_cmd in E. apply obind_ok in E as (tags & _ & E).
    match type of E with context [cmd_loop ?a ?b ?c ?d ?e ?f] => pose proof (cmd_loop_names a b c d e f) as X; destruct (cmd_loop a b c d e f) as [us [c' l']] end. cbn [fst snd] in X. injection E as _ <- _.
    cbn in X |- *. injection X as X. congruence.
  - unfold handle_selection_delta in E. apply obind_ok in E as ([? ?] & _ & E). apply obind_ok in E as (? & _ & E). injection E as _ <- _. apply Same; reflexivity.
  - unfold update_control_group in E. apply obind_ok in E as ([? ?] & _ & E). destruct (cg_update e); repeat (apply obind_ok in E as (? & _ & E)); try (injection E as _ <- _; apply Same; reflexivity).
    destruct (mark_selected_units _ _ _). injection E as _ <- _. apply Same; reflexivity.
  - unfold handle_update_target_point in E. apply obind_ok in E as (? & _ & E). destruct (target_loop _ _ _). injection E as _ <- _. apply Same; reflexivity.
  - unfold handle_update_target_unit in E. match type of E with (match ?x with _ => _ end = _) => destruct x end; [|injection E as _ <- _; apply Same; reflexivity].
    apply obind_ok in E as (? & _ & E). destruct (target_loop _ _ _). injection E as _ <- _. apply Same; reflexivity.
Qed.
Lemma tracker_names : forall mc st l e st' it, handle_transition mc st (ETracker l e) = Ok (st', it) -> without_names (it_event it) = without_names (ETracker l e).
Proof. intros mc st l e st' it E. rewrite (tracker_item_event _ _ _ _ _ _ E). destruct e; reflexivity. Qed.
Lemma run_names : forall mc evs st st' its, run mc st evs = Ok (st', its) -> Forall2 (fun e i => without_names (it_event i) = without_names e) evs its.
Proof.
  intros mc. induction evs as [|e evs IH]; intros st st' its E; cbn [run] in E; [injection E as _ <-; constructor|].
  apply obind_ok in E as ([st1 i] & E1 & E). apply obind_ok in E as ([st2 is] & E2 & E). injection E as _ <-. constructor; [|eapply IH; eauto].
  destruct e; [eapply tracker_names|eapply game_names]; eauto.
Qed.
Lemma names_kind : forall a b, without_names a = without_names b -> match a with ETracker _ _ => true | _ => false end = match b with ETracker _ _ => true | _ => false end.
Proof. intros [l e|l u n e] [l' e'|l' u' n' e'] E; try reflexivity; exfalso; cbn in E; [destruct e, e'|destruct e, e']; discriminate. Qed.
Lemma interleaving_items : forall ts gs evs its, interleaving (map tracker_item ts) (map game_item_event gs) evs -> Forall2 (fun e i => without_names (it_event i) = without_names e) evs its ->
  Forall2 (fun x i => without_names (it_event i) = without_names (tracker_item x)) ts (filter of_tracker_events its) /\
  Forall2 (fun x i => without_names (it_event i) = without_names (game_item_event x)) gs (filter of_game_events its).
Proof.
  intros ts gs evs its I. remember (map tracker_item ts) as a eqn:Ea. remember (map game_item_event gs) as b eqn:Eb. revert ts gs Ea Eb its.
  induction I as [|x a b l I IH|x a b l I IH]; intros ts gs Ea Eb its F.
  - destruct ts; [|discriminate]. destruct gs; [|discriminate]. inversion F; subst. split; constructor.
  - destruct ts as [|t ts]; [discriminate|]. injection Ea as -> Ea. inversion F as [|? i ? is Hi Hf]; subst. destruct (IH ts gs eq_refl eq_refl is Hf) as [A B].
    pose proof (names_kind _ _ Hi) as K. cbn [tracker_item] in K. cbn [filter]. unfold of_tracker_events at 1, of_game_events at 1. destruct (it_event i) eqn:Ei; [|discriminate]. rewrite <- Ei in Hi. split; [constructor; assumption|exact B].
  - destruct gs as [|g gs]; [discriminate|]. injection Eb as -> Eb. inversion F as [|? i ? is Hi Hf]; subst. destruct (IH ts gs eq_refl eq_refl is Hf) as [A B].
    pose proof (names_kind _ _ Hi) as K. cbn [game_item_event] in K. cbn [filter]. unfold of_tracker_events at 1, of_game_events at 1. destruct (it_event i) eqn:Ei; [discriminate|]. rewrite <- Ei in Hi. split; [exact A|constructor; assumption].
Qed.
Lemma Forall2_trans' : forall A B C (R : A -> B -> Prop) (S : B -> C -> Prop) (T : A -> C -> Prop) l l' l'', (forall a b c, R a b -> S b c -> T a c) -> Forall2 R l l' -> Forall2 S l' l'' -> Forall2 T l l''.
Proof. intros A B C R S T l l' l'' Hx F. revert l''. induction F as [|a b l l' Hr F IH]; intros l'' G; inversion G; subst; constructor; eauto. Qed.
Lemma opens_starts' : forall m w all d st t g, opens m w all d st t g -> exists x, starts (joined_init d) (joined_details x) (balance_of_version (xi_version d) all) st.
Proof. exact opens_starts. Qed.
Lemma events_shown : forall mc w all d st t g tevs gevs its, world_bytes w -> opens (mc_build mc) w all d st t g -> sectors_of mc (iterator_proto d) tevs t gevs g ->
  delivers_all mc (iterator_proto d) (merge_start st t g None) its ->
  Forall2 shows_tracker (at_loops 0 tevs) (filter of_tracker_events its) /\
  Forall2 (shows_game (player_names st)) (filter supported_game (at_loops 0 gevs)) (filter of_game_events its).
Proof.
  intros mc w all d st t g tevs gevs its Hw Ho Hp D. destruct (opens_starts _ _ _ _ _ _ _ Ho) as (x & Hst).
  destruct (sectors_collected mc (iterator_proto d) _ _ _ st tevs t gevs g Hst Hp) as (ts & gs & evs & F1 & F2 & I & C).
  rewrite (delivers_collect _ _ _ _ (opens_good _ _ _ _ _ _ _ Hw Ho) D) in C. unfold items_of in C. symmetry in C. apply obind_ok in C as ([st' its'] & R & C). injection C as ->.
  destruct (interleaving_items ts gs evs its I (run_names _ _ _ _ _ R)) as [A B]. split.
  - eapply Forall2_trans'; [|exact F1|exact A]. intros [l v] [l' e] i [E1 E2] Hn. cbn [fst snd] in *. subst l'. exists e. split; [exact E2|exact Hn].
  - eapply Forall2_trans'; [|exact F2|exact B]. intros [l [u v]] [l' [u' n' e]] i (E1 & E2 & E3 & E4) Hn. cbn in *. subst. exists e. split; [exact E4|exact Hn].
Qed.

(** ** Filters *)
Lemma hidden_skip : forall c i, skip_event (filters_of_cli c) (it_event i) = true <-> hidden_by c i.
Proof.
  intros c i. unfold hidden_by. destruct (it_event i) as [l e|l u n e]; unfold skip_event.
  - cbn [fi_min fi_max filters_of_cli].
    assert (X : event_skip (filters_of_cli c) (ETracker l e) = true <-> match e with
      | TUnitDied x => exists q, cl_player c = Some q /\ ud_killer_player x <> Some q
      | _ => (exists q o, cl_player c = Some q /\ controlling_player e = Some o /\ o <> q) \/ (exists s o, cl_unit c = Some s /\ named_unit e = Some o /\ o <> s) \/
             (exists y, e = TPlayerStats y) /\ cl_stats c = false end).
    { pose proof (should_skip_spec (filters_of_cli c) (ETracker l e)) as S. cbn [fi_player fi_unit fi_stats filters_of_cli] in S. specialize (S ltac:(discriminate)). destruct e; exact S. }
    destruct (cl_min c) as [a|], (cl_max c) as [b|]; cbn [orb];
      repeat match goal with |- context [?x <? ?y] => destruct (Z.ltb_spec x y) end; cbn [orb];
      (split; [intros Y; first [apply X in Y; right; right; exact Y|left; eexists; split; [reflexivity|assumption]|right; left; eexists; split; [reflexivity|assumption]]
              |intros [(z & Q & Hz)|[(z & Q & Hz)|Y]]; try discriminate Q; try (injection Q as <-); try reflexivity; try lia; apply X; exact Y]).
  - cbn [event_skip fi_player filters_of_cli]. unfold as_u8. rewrite (differs_spec _ Z.eqb Z.eqb_eq). reflexivity.
Qed.
Lemma filter_somes : forall f (its : list item), filter (let_through f) (map Some its ++ [None]) = map Some (filter (fun i => negb (skip_event f (it_event i))) its) ++ [None].
Proof. intros f its. induction its as [|i its IH]; [reflexivity|]. cbn [map app filter let_through]. rewrite IH. destruct (negb _); reflexivity. Qed.
Lemma first_somes : forall k (its : list item), exists tail, first_items k (map Some its ++ [None]) = map Some (firstn k its) ++ None :: tail.
Proof.
  induction k as [|k IH]; intros [|i its].
  - exists []. reflexivity.
  - cbn [map app first_items firstn]. eauto.
  - exists []. reflexivity.
  - cbn [map app first_items firstn]. destruct (IH its) as (tail & ->). exists tail. reflexivity.
Qed.
Lemma last_somes : forall (l : list (option item)), last (l ++ [None]) None = None.
Proof. intros l. apply last_last. Qed.
Lemma filtered_delivers : forall mc p st t g its c, bytes_ok t -> bytes_ok g -> (forall n, cl_events c = Some n -> 0 <= n) -> delivers_all mc p (merge_start st t g None) its ->
  exists shown, shown_by c its shown /\ delivers_all mc p (merge_start st t g (Some (filters_of_cli c))) shown.
Proof.
  intros mc p st t g its c Ht Hg Hn (it' & D). set (f := fun i : item => negb (skip_event (filters_of_cli c) (it_event i))).
  assert (Hf : forall i, f i = false <-> hidden_by c i) by (intros i; unfold f; rewrite Bool.negb_false_iff; apply hidden_skip).
  destruct (cl_events c) as [n|] eqn:En.
  - destruct (filters_count mc p st t g _ _ it' Ht Hg D (last_somes _) (filters_of_cli c) n En (Hn n eq_refl)) as (f' & E). rewrite filter_somes in E. fold f in E.
    destruct (first_somes (Z.to_nat n - 1) (filter f its)) as (tail & Q). rewrite Q in E. exists (firstn (Z.to_nat n - 1) (filter f its)). split; [exists f; rewrite En; auto|].
    pose proof (calls_length _ _ _ _ _ _ E) as L. rewrite <- L in E. replace (None :: tail) with ([None] ++ tail) in E by reflexivity. rewrite app_assoc in E. apply calls_prefix in E as (it1 & E).
    exists it1. rewrite app_length, map_length in E. cbn [length] in E. rewrite Nat.add_1_r in E. exact E.
  - pose proof (filters_hide mc p st t g _ _ it' Ht Hg D (last_somes _) (filters_of_cli c) En) as E. rewrite filter_somes in E. fold f in E. exists (filter f its). split; [exists f; rewrite En; auto|].
    eexists. rewrite app_length, map_length in E. cbn [length] in E. rewrite Nat.add_1_r in E. exact E.
Qed.
Lemma shown_unique : forall c its a b, shown_by c its a -> shown_by c its b -> a = b.
Proof.
  intros c its a b (f & Hf & ->) (g & Hg & ->). assert (E : forall i, f i = g i).
  { intros i. destruct (f i) eqn:E1, (g i) eqn:E2; try reflexivity; exfalso; [apply Hg, Hf in E2|apply Hf, Hg in E1]; congruence. }
  rewrite (filter_ext f g E). reflexivity.
Qed.
Lemma transist_filtered : forall mc w all c a d st t g its, world_bytes w -> (forall n, cl_events c = Some n -> 0 <= n) -> opens (mc_build mc) w all d st t g ->
  delivers_all mc (iterator_proto d) (merge_start st t g None) its ->
  exists shown, shown_by c its shown /\
    get_one mc w all c RTransist a d = (Ok tt, if cl_quiet c then [] else KOpen :: flat_map (fun i => [KEvent i; KComma]) shown ++ [KClose]).
Proof.
  intros mc w all c a d st t g its Hw Hn Ho D. assert (Hb : bytes_ok t /\ bytes_ok g) by (destruct Ho as (ar & x & _ & Ea & Et & Eg & _); destruct (Hw _ _ Ea) as [_ B]; split; eapply B; eauto).
  destruct (filtered_delivers mc (iterator_proto d) st t g its c (proj1 Hb) (proj2 Hb) Hn D) as (shown & Hs & D'). exists shown. split; [exact Hs|].
  cbn [get_one]. rewrite (proj2 (iterator_new_opens _ _ _ _ (merge_start st t g None))) by eauto. cbn [use].
  change (with_filters (Some (filters_of_cli c)) (merge_start st t g None)) with (merge_start st t g (Some (filters_of_cli c))).
  pose proof (opens_good_with _ _ _ _ _ _ _ (Some (filters_of_cli c)) Hw Ho) as Hg.
  destruct (print_items_cases mc (iterator_proto d) (fun i => if cl_quiet c then [] else [KEvent i; KComma]) _ Hg) as [(its' & D2 & P)|(its' & D2 & P)].
  - rewrite (delivers_unique _ _ _ _ _ Hg D2 D') in P. rewrite P. unfold andthen, print. cbn [fst snd]. destruct (cl_quiet c); [rewrite flat_map_nothing; reflexivity|reflexivity].
  - exfalso. destruct D2 as (it1 & D2 & Q). destruct D' as (it2 & D'). revert D2 D' Q Hg. generalize (merge_start st t g (Some (filters_of_cli c))). clear. revert shown.
    induction its' as [|i its' IH]; intros shown it D2 D' Q Hg.
    + cbn [length merge_calls map] in D2. injection D2 as ->. cbn [merge_calls] in D'. rewrite Q in D'. discriminate.
    + cbn [length merge_calls map] in D2. apply obind_ok in D2 as ([r it3] & E & D2). apply obind_ok in D2 as ([rs it4] & E2 & D2). injection D2 as -> -> ->. 
      destruct shown as [|j shown]; cbn [length] in D'; [cbn [merge_calls] in D'; rewrite E in D'; discriminate|].
      remember (S (length shown)) as k. cbn [merge_calls] in D'. rewrite E in D'. cbn [obind] in D'. apply obind_ok in D' as ([rs it5] & D' & X). injection X as _ -> ->. subst k.
      eapply IH; eauto. eapply next_good; eauto.
Qed.
(** The options have no effect on the other types, nor [--event-type] on any. *)
Lemma get_one_options : forall mc w all c c' r a d, r <> RTransist -> get_one mc w all c r a d = get_one mc w all c' r a d.
Proof. intros mc w all c c' [] a d Hr; try reflexivity. congruence. Qed.
Lemma get_options : forall mc t w all c c' r source, r <> RTransist -> handle_get_cmd mc t w all c r source = handle_get_cmd mc t w all c' r source.
Proof.
  intros mc t w all c c' r source Hr. unfold handle_get_cmd. destruct (get_sources t source) as [l|e|]; cbn [use]; try reflexivity. induction l as [|p l IH]; [reflexivity|]. cbn [get_loop]. rewrite IH. f_equal.
  unfold get_source. destruct (open_file w (path_string p)) as [a|e|]; try reflexivity. destruct (path_text p); try reflexivity. destruct (file_init (mc_build mc) s 0 a) as [d|e|]; cbn [use]; try reflexivity. now apply get_one_options.
Qed.
Definition set_type (ty : option string) (f : filters) : filters := mk_filters (fi_player f) (fi_tag f) (fi_min f) (fi_max f) ty (fi_unit f) (fi_events f) (fi_stats f).
Definition retype (ty : option string) (it : merged) : merged := with_filters (option_map (set_type ty) (mg_filters it)) it.
Lemma skip_type : forall ty f e, skip_event (set_type ty f) e = skip_event f e.
Proof. intros ty f [l e|l u n e]; unfold skip_event, event_skip; cbn; [|reflexivity]. destruct e; reflexivity. Qed.
Lemma decrease_type : forall ty f, decrease_allowed (set_type ty f) = set_type ty (decrease_allowed f).
Proof. intros ty f. unfold decrease_allowed. cbn [fi_events set_type]. destruct (fi_events f) as [n|]; [|reflexivity]. destruct (0 <? n); reflexivity. Qed.
Lemma fill_tracker_filters : forall mc p it it', fill_tracker mc p it = Ok it' -> mg_filters it' = mg_filters it.
Proof. intros mc p it it' E. unfold fill_tracker in E. destruct (mg_next_tracker it); [congruence|]. apply obind_ok in E as ([x s] & _ & E). injection E as <-. reflexivity. Qed.
Lemma fill_game_filters : forall mc p it it', fill_game mc p it = Ok it' -> mg_filters it' = mg_filters it.
Proof. intros mc p it it' E. unfold fill_game in E. destruct (mg_next_game it); [congruence|]. apply obind_ok in E as ([x s] & _ & E). injection E as <-. reflexivity. Qed.
Lemma advance_keeps : forall mc p it r it', advance mc p it = Ok (r, it') -> mg_filters it' = mg_filters it.
Proof.
  intros mc p it r it' E. unfold advance in E. apply obind_ok in E as (it1 & E1 & E). apply obind_ok in E as (it2 & E2 & E). injection E as E.
  rewrite <- (fill_tracker_filters _ _ _ _ E1), <- (fill_game_filters _ _ _ _ E2). unfold pick in E. destruct (mg_next_tracker it2), (mg_next_game it2); try (injection E as _ <-; reflexivity).
  destruct (tracker_first _ _); injection E as _ <-; reflexivity.
Qed.
Lemma merge_retype : forall mc p ty n it, merge_fuel mc p n (retype ty it) = do (r, it') <- merge_fuel mc p n it; Ok (r, retype ty it').
Proof.
  intros mc p ty. induction n as [|n IH]; intros it; [reflexivity|]. cbn [merge_fuel]. unfold round. unfold retype at 1. rewrite advance_filters.
  destruct (advance mc p it) as [[o it1]|e|] eqn:Ea; cbn [obind]; try reflexivity. apply advance_keeps in Ea. destruct o as [e|]; cbn [obind]; [|unfold retype; rewrite Ea; reflexivity].
  change (mg_state (with_filters (option_map (set_type ty) (mg_filters it)) it1)) with (mg_state it1). destruct (handle_transition mc (mg_state it1) e) as [[st i]|x|]; cbn [obind]; try reflexivity. cbv zeta.
  assert (R : with_state st (with_filters (option_map (set_type ty) (mg_filters it)) it1) = retype ty (with_state st it1)) by (unfold retype; cbn; rewrite Ea; reflexivity).
  rewrite R. set (it2 := with_state st it1) in *. assert (F : mg_filters (retype ty it2) = option_map (set_type ty) (mg_filters it2)) by reflexivity. rewrite F.
  destruct (mg_filters it2) as [f|]; cbn [option_map]; [|reflexivity]. rewrite skip_type. destruct (skip_event f (it_event i)); [apply IH|]. rewrite decrease_type.
  assert (M : max_reached (set_type ty (decrease_allowed f)) = max_reached (decrease_allowed f)) by reflexivity. rewrite M. destruct (max_reached (decrease_allowed f)); reflexivity.
Qed.
Lemma left_retype : forall ty it, left_over (retype ty it) = left_over it.
Proof. reflexivity. Qed.
Lemma print_retype : forall mc p show ty n it, print_fuel mc p show n (retype ty it) = print_fuel mc p show n it.
Proof.
  intros mc p show ty. induction n as [|n IH]; intros it; [reflexivity|]. cbn [print_fuel]. unfold merge_next. rewrite left_retype, merge_retype. destruct (merge_fuel mc p (S (left_over it)) it) as [[[i|] it']|e|]; cbn [obind use fst snd]; try reflexivity.
  rewrite IH. reflexivity.
Qed.
Definition with_type (ty : option string) (c : cli) : cli := mk_cli (cl_player c) (cl_min c) (cl_max c) ty (cl_unit c) (cl_events c) (cl_stats c) (cl_quiet c).
Lemma get_type_ignored : forall mc t w all c ty r source, handle_get_cmd mc t w all (with_type ty c) r source = handle_get_cmd mc t w all c r source.
Proof.
  intros mc t w all c ty r source. unfold handle_get_cmd. destruct (get_sources t source) as [l|e|]; cbn [use]; try reflexivity. induction l as [|p l IH]; [reflexivity|]. cbn [get_loop]. rewrite IH. f_equal.
  unfold get_source. destruct (open_file w (path_string p)) as [a|e|]; try reflexivity. destruct (path_text p); try reflexivity. destruct (file_init (mc_build mc) s 0 a) as [d|e|]; cbn [use]; try reflexivity.
  destruct r; try reflexivity. cbn [get_one]. destruct (iterator_new (mc_build mc) w d all) as [it|e|]; cbn [use]; try reflexivity. cbn [cl_quiet with_type].
  assert (X : with_filters (Some (filters_of_cli (with_type ty c))) it = retype ty (with_filters (Some (filters_of_cli c)) it)) by reflexivity. rewrite X.
  unfold print_items. rewrite left_retype, print_retype. reflexivity.
Qed.

(** ** JSON *)
Lemma values_rest : forall l, Forall (fun v => is_value v = true) l -> array_rest (l ++ [KClose]) -> l = [].
Proof. intros [|v l] F A; [reflexivity|]. exfalso. inversion F; subst. cbn [app] in A. inversion A; subst; discriminate. Qed.
Lemma section_array : forall l, Forall (fun v => is_value v = true) l -> (json_text (KOpen :: l ++ [KClose]) <-> (length l <= 1)%nat).
Proof.
  intros l F. split.
  - intros [A|(v & _ & A)]; [|destruct l; discriminate]. destruct l as [|v l]; [cbn; lia|]. inversion A as [Q|v' l' Hv R Q]; [destruct l; discriminate|]. subst v' l'.
    inversion F; subst. rewrite (values_rest l); [cbn; lia|assumption|exact R].
  - intros L. left. destruct l as [|v [|v' l]]; cbn in L; [constructor| |lia]. inversion F; subst. cbn [app]. constructor; [assumption|constructor].
Qed.
Lemma commas_array : forall l : list item, json_text (KOpen :: flat_map (fun i => [KEvent i; KComma]) l ++ [KClose]) <-> l = [].
Proof.
  intros l. split; [|intros ->; left; constructor]. intros [A|(v & _ & A)]; [|destruct l; discriminate]. destruct l as [|i l]; [reflexivity|]. exfalso.
  cbn [flat_map app] in A. inversion A as [|v' l' _ R]; subst. clear A. revert i R. induction l as [|j l IH]; intros i R; cbn [flat_map app] in R; inversion R as [|v'' l'' Hv R' Q]; subst; [discriminate|]. exact (IH j R').
Qed.
Lemma section_json : forall mc w all c a d r out, section_of mc w all c a d r out -> (json_text out <->
  match r with
  | RTracker | RGame | RMessages => (length (filter is_value out) <= 1)%nat
  | RDetails | RInit => True
  | RTransist => cl_quiet c = false /\ filter is_value out = []
  end).
Proof.
  intros mc w all c a d r out S.
  assert (V : forall (A : Type) (f : A -> token) l, (forall x, is_value (f x) = true) -> json_text (KOpen :: map f l ++ [KClose]) <-> (length (filter is_value (KOpen :: map f l ++ [KClose])) <= 1)%nat).
  { intros A f l Hf. rewrite section_array by (rewrite Forall_map; apply Forall_forall; auto). cbn [filter is_value]. rewrite filter_app, app_length. cbn [filter is_value length].
    replace (filter is_value (map f l)) with (map f l); [lia|]. clear -Hf. induction l as [|x l IH]; [reflexivity|]. cbn [map filter]. rewrite Hf, <- IH. reflexivity. }
  inversion S; subst.
  - apply V. reflexivity.
  - apply V. reflexivity.
  - apply V. reflexivity.
  - split; [auto|]. intros _. right. eexists. split; [|reflexivity]. reflexivity.
  - split; [auto|]. intros _. right. eexists. split; [|reflexivity]. reflexivity.
  - destruct (cl_quiet c).
    + split; [|intros [Q _]; discriminate]. intros [A|(v & _ & A)]; [inversion A|discriminate].
    + rewrite commas_array. cbn [filter is_value]. rewrite filter_app. cbn [filter is_value]. rewrite app_nil_r. split.
      * intros ->. split; reflexivity.
      * intros [_ E]. destruct its; [reflexivity|discriminate].
Qed.

(** ** Stopping *)
Lemma raw_details_fails : forall m a o, archive_bytes a -> failed_as (file_raw_details m a) o -> failed_as (file_details m 0 a) o.
Proof.
  intros m a o Ha Hf. assert (E : forall b l, checked_header m a = Ok b -> ar_sector a "replay.details" = Ok l -> file_raw_details m a = (do (r, v) <- vparse m ba_GameSDetails l; details_from v) /\ file_details m 0 a = details_new m 0 l).
  { intros b l Eb El. unfold file_raw_details, file_details. rewrite Eb. cbn [obind]. rewrite El. cbn [obind]. split; destruct (dispatch_details b); reflexivity. }
  destruct (checked_header m a) as [b|e|] eqn:Eb; [|unfold file_raw_details, file_details in *; rewrite Eb in *; exact Hf|unfold file_raw_details, file_details in *; rewrite Eb in *; exact Hf].
  destruct (ar_sector a "replay.details") as [l|e|] eqn:El; [|unfold file_raw_details, file_details in *; rewrite Eb in *; cbn [obind] in *; rewrite El in *; exact Hf|unfold file_raw_details, file_details in *; rewrite Eb in *; cbn [obind] in *; rewrite El in *; exact Hf].
  destruct (E b l eq_refl eq_refl) as [E1 E2]. rewrite E1 in Hf. rewrite E2. pose proof (details_new_cases m 0 l (proj2 Ha _ _ El)) as C.
  destruct (vparse m ba_GameSDetails l) as [[r v]|e|] eqn:Ev; cbn [obind] in *; [|rewrite C; destruct Hf as [(e' & Q & ->)|[Q ->]]; [injection Q as <-; left; eauto|discriminate]|rewrite C; exact Hf].
  pose proof (details_conv v (proj2 (vparse_typed m ba_GameSDetails eq_refl l r v (proj2 Ha _ _ El) Ev))) as K. unfold conv_at in K.
  unfold details_new. rewrite Ev. cbn [obind]. destruct Hf as [(e' & Q & ->)|[Q ->]]; rewrite Q; [left|right; split; reflexivity]. exists e'. auto.
Qed.
Lemma stop_failed : forall A (x : outcome A) o out, stop x = (o, out) -> o <> Ok tt -> failed_as x o /\ out = [].
Proof. intros A [a|e|] o out E Ho; cbn [stop] in E; injection E as <- <-; [congruence| |]; (split; [|reflexivity]); [left; eauto|right; auto]. Qed.
Lemma get_source_stops : forall mc w all c r p o out, world_bytes w -> get_source mc w all c r p = (o, out) -> o <> Ok tt -> stops_at mc w all c r p o out.
Proof.
  intros mc w all c r p o out Hw E Ho. unfold get_source in E. destruct (open_file w (path_string p)) as [a|e|] eqn:Ea.
  2: { injection E as <- _. congruence. }
  2: { injection E as <- <-. apply open_file_panic in Ea as [_ Ea]. now apply stop_open. }
  assert (Ei : forall name, path_text p = Some name -> init_try_from (mc_build mc) w p 0 = file_init (mc_build mc) name 0 a) by (intros name En; unfold init_try_from; rewrite Ea, En; reflexivity).
  apply open_file_ok in Ea as [Ea Hn]. destruct (path_text_spec p) as [[Et Hu]|[Et Hu]]; rewrite Et in E; [|injection E as <- <-; eapply stop_name; eauto]. specialize (Ei _ Et).
  destruct (file_init (mc_build mc) (path_string p) 0 a) as [d|e|] eqn:Ed; cbn [use] in E.
  2: { apply stop_failed in E as [Hf ->]; [|exact Ho]. apply stop_init. rewrite Ei. exact Hf. }
  2: { apply stop_failed in E as [Hf ->]; [|exact Ho]. apply stop_init. rewrite Ei. exact Hf. }
  destruct r; cbn [get_one] in E.
  - destruct (iterator_new (mc_build mc) w d all) as [it|e|] eqn:En; cbn [use] in E; try (apply stop_failed in E as [Hf ->]; [|exact Ho]; eapply stop_events; [exact Ei|cbn; auto|rewrite En; exact Hf]).
    apply iterator_new_opens in En as (st & t & g & Hop & ->).
    destruct (print_items_cases mc (iterator_proto d) (fun i => if is_tracker_event i then [KEvent i] else []) _ (opens_good _ _ _ _ _ _ _ Hw Hop)) as [(its & D & P)|(its & D & P)]; rewrite P in E;
      unfold andthen, print in E; cbn [fst snd] in E; injection E as <- <-; [congruence|].
    rewrite (flat_map_wanted _ of_tracker_events) by reflexivity. cbn [app]. eapply stop_listing; eauto.
  - destruct (iterator_new (mc_build mc) w d all) as [it|e|] eqn:En; cbn [use] in E; try (apply stop_failed in E as [Hf ->]; [|exact Ho]; eapply stop_events; [exact Ei|cbn; auto|rewrite En; exact Hf]).
    apply iterator_new_opens in En as (st & t & g & Hop & ->).
    destruct (print_items_cases mc (iterator_proto d) (fun i => if is_game_event i then [KEvent i] else []) _ (opens_good _ _ _ _ _ _ _ Hw Hop)) as [(its & D & P)|(its & D & P)]; rewrite P in E;
      unfold andthen, print in E; cbn [fst snd] in E; injection E as <- <-; [congruence|].
    rewrite (flat_map_wanted _ of_game_events) by reflexivity. cbn [app]. eapply stop_listing; eauto.
  - destruct (file_message_events (mc_build mc) a) as [l|e|] eqn:El; cbn [use] in E; [injection E as <- _; congruence| |]; (apply stop_failed in E as [Hf ->]; [|exact Ho]; eapply stop_messages; [exact Ea|reflexivity|rewrite El; exact Hf]).
  - destruct (file_raw_details (mc_build mc) a) as [x|e|] eqn:Ex; cbn [use] in E; [injection E as <- _; congruence| |];
      (apply stop_failed in E as [Hf ->]; [|exact Ho]; eapply stop_details; [exact Ea|reflexivity|apply raw_details_fails; [exact (Hw _ _ Ea)|rewrite Ex; exact Hf]]).
  - injection E as <- _. congruence.
  - destruct (iterator_new (mc_build mc) w d all) as [it|e|] eqn:En; cbn [use] in E; try (apply stop_failed in E as [Hf ->]; [|exact Ho]; eapply stop_events; [exact Ei|cbn; auto|rewrite En; exact Hf]).
    apply iterator_new_opens in En as (st & t & g & Hop & ->).
    change (with_filters (Some (filters_of_cli c)) (merge_start st t g None)) with (merge_start st t g (Some (filters_of_cli c))) in E.
    destruct (print_items_cases mc (iterator_proto d) (fun i => if cl_quiet c then [] else [KEvent i; KComma]) _ (opens_good_with _ _ _ _ _ _ _ (Some (filters_of_cli c)) Hw Hop)) as [(its & D & P)|(its & D & P)]; rewrite P in E;
      unfold andthen, print in E; cbn [fst snd] in E; injection E as <- <-; [congruence|].
    pose proof (stop_transist mc w all c RTransist p Panic d st t g its Ei Hop eq_refl D eq_refl) as X. destruct (cl_quiet c); [rewrite flat_map_nothing; exact X|exact X].
Qed.
Lemma get_stops : forall mc t w all c r source o out, world_bytes w -> handle_get_cmd mc t w all c r source = (o, out) -> o <> Ok tt ->
  (exists es, t source = NDir es /\ (es = None \/ exists l, es = Some l /\ In None l) /\ out = []) \/
  exists l before p after parts last, sources_of t source l /\ l = before ++ p :: after /\ Forall2 (part_of mc w all c r) before parts /\ stops_at mc w all c r p o last /\ out = concat parts ++ last.
Proof.
  intros mc t w all c r source o out Hw E Ho. unfold handle_get_cmd in E. destruct (get_sources t source) as [l|e|] eqn:Es; cbn [use] in E.
  - right. apply get_sources_spec in Es. apply get_loop_stops in E as (before & p & after & parts & lst & El & F & Ep & ->); [|exact Ho]. exists l, before, p, after, parts, lst.
    split; [exact Es|]. split; [exact El|]. split; [|split; [now apply get_source_stops|reflexivity]]. clear -F Hw. induction F as [|q part before parts Hq F IH]; constructor; [|exact IH]. now apply get_source_ok.
  - left. apply stop_failed in E as [_ ->]; [|exact Ho]. apply get_sources_err in Es as (es & A & B). eauto.
  - exfalso. unfold get_sources in Es. destruct (t source) as [[es|]| |]; try discriminate. clear -Es. revert Es. induction es as [|[n|] es IH]; cbn [entry_files]; try discriminate.
    destruct (entry_files t source es); cbn [obind]; try discriminate. exact IH.
Qed.
