(** * Tracker event conversions lose nothing *)
From Coq Require Import Ascii.
From Verif Require Import Base Types Utf8 Utf8Facts Tags TagFacts Events Convert ConvertSpec Typed Versioned ByteTypes ByteFacts ConvertFacts Dispatch.
#[local] Open Scope string_scope.
#[local] Open Scope Z_scope.
#[local] Open Scope list_scope.

Ltac vf1 :=
  match goal with
  | Hr : vfields [] ?vs = true |- _ => pose proof (vf_nil vs Hr) as ->; clear Hr
  | Hr : vfields (?f :: ?fs) ?vs = true |- _ =>
      let w := fresh "w" in let vs' := fresh "vs" in let Hw := fresh "Hw" in
      destruct (vf_cons f fs vs Hr) as (w & vs' & -> & Hw & ?); clear Hr; cbn [f_name f_ty] in Hw |- *
  end.
Ltac vt1 :=
  match goal with
  | Hr : vtyped ?t ?v = true |- _ =>
      let t' := eval hnf in t in
      lazymatch t' with
      | TInt ?n => let z := fresh "z" in let Hz := fresh "Hz" in destruct (vt_int n v Hr) as (z & -> & Hz); clear Hr
      | TStruct ?fs => let vs := fresh "vs" in let Hv := fresh "Hv" in destruct (vt_struct fs v Hr) as (vs & -> & Hv); clear Hr
      | TBlob => let l := fresh "l" in let Hl := fresh "Hl" in destruct (vt_blob v Hr) as (l & -> & Hl); clear Hr
      | TArray ?t => let l := fresh "l" in let Hl := fresh "Hl" in destruct (vt_array t v Hr) as (l & -> & Hl); clear Hr
      | TOpt ?t => let w := fresh "w" in let Hw := fresh "Hw" in destruct (vt_opt t v Hr) as [->|(w & -> & Hw)]; clear Hr
      end
  end.
Ltac vinv := repeat first [vf1 | vt1].

Lemma all_utf8_nil : forall l, texts l = [] -> all_utf8 l.
Proof. intros l E. unfold all_utf8. rewrite E. constructor. Qed.

(** Either the event is exact and every text was UTF-8, or it is the UTF-8
    error and some text was not. *)
Definition tracker_exact (v : val) : Prop :=
  (exists e, tracker_from v = Ok e /\ tracker_value e = Some v /\ all_utf8 v) \/
  (tracker_from v = Err EUtf8 /\ ~ all_utf8 v).

Lemma tc_plain : forall v e, tracker_from v = Ok e -> tracker_value e = Some v -> texts v = [] -> tracker_exact v.
Proof. intros v e E1 E2 E3. left. exists e. split; [exact E1|]. split; [exact E2|]. now apply all_utf8_nil. Qed.
Lemma tc_one : forall v l (mk : string -> tracker_event), texts v = [l] -> forallb in_u8 l = true ->
  (tracker_from v = do s <- from_utf8 l; Ok (mk s)) -> (forall s, bytes_of_str s = l -> tracker_value (mk s) = Some v) -> tracker_exact v.
Proof.
  intros v l mk Et Hl E Ev. unfold tracker_exact, all_utf8. rewrite Et. destruct (from_utf8_cases l) as [(s & Es)|Es]; rewrite Es in E; cbn [obind] in E.
  - left. exists (mk s). split; [exact E|]. split; [apply Ev; now apply (from_utf8_bytes l s)|]. constructor; eauto.
  - right. split; [exact E|]. intros Hf. inversion Hf as [|? ? [s Hs] _]; subst. congruence.
Qed.
Lemma tc_two : forall v l1 l2 (mk : string -> string -> tracker_event), texts v = [l1; l2] -> forallb in_u8 l1 = true -> forallb in_u8 l2 = true ->
  (tracker_from v = do s2 <- from_utf8 l2; do s1 <- from_utf8 l1; Ok (mk s1 s2)) ->
  (forall s1 s2, bytes_of_str s1 = l1 -> bytes_of_str s2 = l2 -> tracker_value (mk s1 s2) = Some v) -> tracker_exact v.
Proof.
  intros v l1 l2 mk Et H1 H2 E Ev. unfold tracker_exact, all_utf8. rewrite Et.
  destruct (from_utf8_cases l1) as [(s1 & E1)|E1]; destruct (from_utf8_cases l2) as [(s2 & E2)|E2]; rewrite E1, E2 in E; cbn [obind] in E.
  - left. exists (mk s1 s2). split; [exact E|]. split; [apply Ev; [now apply (from_utf8_bytes l1)|now apply (from_utf8_bytes l2)]|]. repeat constructor; eauto.
  - right. split; [exact E|]. intros Hf. inversion Hf as [|? ? _ Hf']; inversion Hf' as [|? ? [s Hs] _]; subst. congruence.
  - right. split; [exact E|]. intros Hf. inversion Hf as [|? ? [s Hs] _]; subst. congruence.
  - right. split; [exact E|]. intros Hf. inversion Hf as [|? ? [s Hs] _]; subst. congruence.
Qed.

Ltac trun := cbn [tracker_from String.eqb Ascii.eqb Bool.eqb]; run.
Ltac plain := eapply tc_plain; [reflexivity|reflexivity|reflexivity].
Ltac one l := eapply (tc_one _ l); [reflexivity|assumption|reflexivity|let s := fresh in let E := fresh in intros s E; cbn [tracker_value]; unfold v_str; cbn; rewrite E; reflexivity].

Lemma died_exact : forall w, vtyped ba_ReplayTrackerSUnitDiedEvent w = true -> tracker_exact (VChoice "EUnitDied" w).
Proof. intros w H. vinv; plain. Qed.
Lemma owner_exact : forall w, vtyped ba_ReplayTrackerSUnitOwnerChangeEvent w = true -> tracker_exact (VChoice "EUnitOwnerChange" w).
Proof. intros w H. vinv; plain. Qed.
Lemma done_exact : forall w, vtyped ba_ReplayTrackerSUnitDoneEvent w = true -> tracker_exact (VChoice "EUnitDone" w).
Proof. intros w H. vinv; plain. Qed.
Lemma setup_exact : forall w, vtyped ba_ReplayTrackerSPlayerSetupEvent w = true -> tracker_exact (VChoice "EPlayerSetup" w).
Proof. intros w H. vinv; plain. Qed.
Lemma texts_ints : forall zs, flat_map texts (map VInt zs) = [].
Proof. induction zs; [reflexivity|assumption]. Qed.
Lemma positions_exact : forall w, vtyped ba_ReplayTrackerSUnitPositionsEvent w = true -> tracker_exact (VChoice "EUnitPosition" w).
Proof.
  intros w H. vinv. destruct (vt_ints _ _ Hl) as (zs & ->).
  eapply tc_plain; [trun; unfold unit_positions_from; run; rewrite map_out_int; reflexivity|reflexivity|cbn; rewrite texts_ints; reflexivity].
Qed.
Lemma type_exact : forall w, vtyped ba_ReplayTrackerSUnitTypeChangeEvent w = true -> tracker_exact (VChoice "EUnitTypeChange" w).
Proof. intros w H. vinv. one l. Qed.
Lemma init_exact : forall w, vtyped ba_ReplayTrackerSUnitInitEvent w = true -> tracker_exact (VChoice "EUnitInit" w).
Proof. intros w H. vinv. one l. Qed.
Lemma obind_assoc : forall A B C (x : outcome A) (f : A -> outcome B) (g : B -> outcome C), obind (obind x f) g = obind x (fun a => obind (f a) g).
Proof. intros A B C [] f g; reflexivity. Qed.
Lemma born_exact : forall w, vtyped ba_ReplayTrackerSUnitBornEvent w = true -> tracker_exact (VChoice "EUnitBorn" w).
Proof.
  intros w H. vinv.
  all: try (one l).
  all: eapply (tc_two _ l0 l); [reflexivity|assumption|assumption
    |trun; unfold unit_born_from; run; unfold to_name; run; rewrite obind_assoc; reflexivity
    |intros s1 s2 E1 E2; rewrite <- E1, <- E2; reflexivity].
Qed.

(** An upgrade keeps its fields; a name that is not UTF-8 becomes the list of its bytes. *)
Lemma upgrade_exact : forall w, vtyped ba_ReplayTrackerSUpgradeEvent w = true ->
  exists p l c, w = VStruct [("m_player_id", VInt p); ("m_upgrade_type_name", VBytes l); ("m_count", VInt c)] /\ forallb in_u8 l = true /\
    tracker_from (VChoice "EUpgrade" w) = Ok (TUpgrade (mk_upgrade p None (name_or_debug l) c)).
Proof. intros w H. vinv. do 3 eexists. split; [reflexivity|]. split; [assumption|reflexivity]. Qed.

Definition stats_exact (ss : list (string * val)) (st : player_stats) : Prop :=
  map fst ss = map (fun x => ("m_score_value_" ++ fst x)%string) st /\
  forall n z, In (("m_score_value_" ++ n)%string, VInt z) ss -> stat n st = Some (shown_stat n z).
Definition int_field (f : fld vty) : bool := match f_ty f with TInt _ => true | _ => false end.
Lemma int_fields : forall fs vs, forallb int_field fs = true -> vfields fs vs = true ->
  map fst vs = map f_name fs /\ Forall (fun x => exists z, snd x = VInt z) vs.
Proof.
  induction fs as [|f fs IH]; intros vs Hf Hv.
  - apply vf_nil in Hv as ->. split; [reflexivity|constructor].
  - apply vf_cons in Hv as (w & vs' & -> & Hw & Hv). cbn [forallb] in Hf. apply andb_true_iff in Hf as [Hi Hf].
    destruct (IH _ Hf Hv) as [En Hvs]. cbn [map fst]. split; [congruence|]. constructor; [|exact Hvs].
    unfold int_field in Hi. destruct (f_ty f) eqn:Et; try discriminate. apply vt_int in Hw as (z & -> & _). now exists z.
Qed.
Lemma lookup_in : forall (ss : list (string * val)) k v, NoDup (map fst ss) -> In (k, v) ss -> lookup k ss = Ok v.
Proof.
  induction ss as [|[k' v'] ss IH]; intros k v Hn Hi; [destruct Hi|]. cbn [map fst] in Hn. inversion Hn as [|? ? Hk Hn']; subst.
  cbn [lookup]. destruct Hi as [E|Hi]; [injection E as -> ->; now rewrite String.eqb_refl|].
  destruct (String.eqb_spec k' k) as [->|Hne]; [|now apply IH]. destruct Hk. now apply (in_map fst) in Hi.
Qed.
Definition stats_map (v : val) : list (string * string * bool) -> outcome player_stats :=
  map_out (fun x => let '(n, src, div) := x in do z <- get to_int src v; Ok (n, if (div : bool) then Z.quot z 4096 else z)).
Lemma stats_map_ok : forall ss tbl, NoDup (map (fun x => fst (fst x)) tbl) ->
  (forall x, In x tbl -> exists z, lookup (snd (fst x)) ss = Ok (VInt z)) ->
  exists st, stats_map (VStruct ss) tbl = Ok st /\ map fst st = map (fun x => fst (fst x)) tbl /\
    forall x z, In x tbl -> lookup (snd (fst x)) ss = Ok (VInt z) -> stat (fst (fst x)) st = Some (if snd x then Z.quot z 4096 else z).
Proof.
  intros ss; induction tbl as [|[[n src] d] tbl IH]; intros Hn Hl.
  - exists []. split; [reflexivity|]. split; [reflexivity|]. intros x z [].
  - cbn [map fst] in Hn. inversion Hn as [|? ? Hx Hn']; subst. destruct (IH Hn') as (st & E & Ef & Hs). { intros y Hy. apply Hl. now right. }
    destruct (Hl (n, src, d) (or_introl eq_refl)) as (z & Ez). cbn [fst snd] in Ez.
    exists ((n, if d then Z.quot z 4096 else z) :: st). split.
    { assert (Eg : get to_int src (VStruct ss) = Ok z) by (unfold get; cbn [field]; rewrite Ez; reflexivity).
      unfold stats_map in *. cbn [map_out]. rewrite Eg. cbn [obind]. now rewrite E. }
    split; [cbn [map fst]; now rewrite Ef|]. intros x z' [<-|Hi] E'; unfold stat; cbn [find fst snd] in *.
    + rewrite String.eqb_refl. rewrite Ez in E'. now injection E' as ->.
    + destruct (String.eqb_spec n (fst (fst x))) as [->|Hne]; [|now apply Hs]. destruct Hx. now apply (in_map (fun x => fst (fst x))).
Qed.
Fixpoint str_nodup (l : list string) : bool := match l with [] => true | a :: l' => negb (existsb (String.eqb a) l') && str_nodup l' end.
Lemma str_nodup_ok : forall l, str_nodup l = true -> NoDup l.
Proof.
  induction l as [|a l IH]; intros E; [constructor|]. cbn [str_nodup] in E. apply andb_true_iff in E as [E1 E2]. constructor; [|now apply IH].
  intros Hi. apply negb_true_iff in E1. assert (existsb (String.eqb a) l = true); [|congruence]. apply existsb_exists. exists a. split; [exact Hi|]. apply String.eqb_refl.
Qed.
Lemma stats_table_shape : forall x, In x stats_table ->
  snd (fst x) = ("m_score_value_" ++ fst (fst x))%string /\ snd x = existsb (String.eqb (fst (fst x))) ["food_used"; "food_made"].
Proof.
  assert (Hf : forallb (fun x => String.eqb (snd (fst x)) ("m_score_value_" ++ fst (fst x))%string && Bool.eqb (snd x) (existsb (String.eqb (fst (fst x))) ["food_used"; "food_made"])) stats_table = true) by (vm_compute; reflexivity).
  rewrite forallb_forall in Hf. intros x Hx. specialize (Hf x Hx). apply andb_true_iff in Hf as [E1 E2]. apply String.eqb_eq in E1. apply Bool.eqb_prop in E2. auto.
Qed.
Definition stats_fields : list (fld vty) := match ba_ReplayTrackerSPlayerStats with TStruct fs => fs | _ => [] end.
Lemma stats_names : map f_name stats_fields = map (fun x => snd (fst x)) stats_table.
Proof. vm_compute. reflexivity. Qed.
Lemma append_inj : forall p a b, (p ++ a)%string = (p ++ b)%string -> a = b.
Proof. induction p as [|c p IH]; intros a b E; [exact E|]. cbn [append] in E. injection E as E. now apply IH. Qed.
Lemma stats_ok : forall w, vtyped ba_ReplayTrackerSPlayerStats w = true ->
  exists ss st, w = VStruct ss /\ stats_from w = Ok st /\ stats_exact ss st.
Proof.
  intros w H. destruct (vt_struct stats_fields _ H) as (ss & -> & Hv). exists ss.
  destruct (int_fields stats_fields ss eq_refl Hv) as [En Hi]. rewrite stats_names in En. clear H Hv.
  assert (Hnd : NoDup (map fst ss)). { rewrite En. apply str_nodup_ok. vm_compute. reflexivity. }
  assert (Hlk : forall x, In x stats_table -> exists z, lookup (snd (fst x)) ss = Ok (VInt z)).
  { intros x Hx. assert (Hin : In (snd (fst x)) (map fst ss)). { rewrite En. now apply (in_map (fun x => snd (fst x))). }
    apply in_map_iff in Hin as ([k v] & E & Hin). cbn [fst] in E. subst k. rewrite Forall_forall in Hi. destruct (Hi _ Hin) as (z & E). cbn [snd] in E. subst v.
    exists z. now apply lookup_in. }
  destruct (stats_map_ok ss stats_table) as (st & E & Ef & Hs); [apply str_nodup_ok; vm_compute; reflexivity|exact Hlk|].
  exists st. split; [reflexivity|]. split; [exact E|]. split.
  - rewrite En. rewrite <- (map_map fst (append "m_score_value_") st), Ef, map_map. apply map_ext_in. intros x Hx. now apply stats_table_shape.
  - intros n z Hin. assert (Hk : In ("m_score_value_" ++ n)%string (map (fun x => snd (fst x)) stats_table)). { rewrite <- En. now apply (in_map fst) in Hin. }
    apply in_map_iff in Hk as (x & Ex & Hx). destruct (stats_table_shape x Hx) as [E1 E2]. rewrite E1 in Ex. apply append_inj in Ex. subst n.
    rewrite <- E1 in Hin. rewrite (Hs x z Hx (lookup_in _ _ _ Hnd Hin)). unfold shown_stat. now rewrite <- E2.
Qed.
Lemma player_stats_exact : forall w, vtyped ba_ReplayTrackerSPlayerStatsEvent w = true ->
  exists p ss st, w = VStruct [("m_player_id", VInt p); ("m_stats", VStruct ss)] /\
    tracker_from (VChoice "EPlayerStats" w) = Ok (TPlayerStats (mk_player_stats p st)) /\ stats_exact ss st.
Proof.
  intros w H. vt1. vf1. vf1. vf1. destruct (stats_ok _ Hw0) as (ss & st & -> & E & Hs). clear Hw0. vinv.
  exists z, ss, st. split; [reflexivity|]. split; [|exact Hs]. trun. unfold player_stats_from. run. rewrite E. reflexivity.
Qed.

(** What the conversion of a decoded tracker event returns. *)
Definition tracker_result (v : val) : Prop :=
  if String.eqb (variant v) "EPlayerStats" then
    exists p ss st, v = VChoice "EPlayerStats" (VStruct [("m_player_id", VInt p); ("m_stats", VStruct ss)]) /\
      tracker_from v = Ok (TPlayerStats (mk_player_stats p st)) /\ stats_exact ss st
  else if String.eqb (variant v) "EUpgrade" then
    exists e, tracker_from v = Ok (TUpgrade e) /\ ug_player_name e = None /\
      (tracker_value (TUpgrade e) = Some v \/
       exists p l c, v = VChoice "EUpgrade" (VStruct [("m_player_id", VInt p); ("m_upgrade_type_name", VBytes l); ("m_count", VInt c)]) /\
         from_utf8 l = Err EUtf8 /\ e = mk_upgrade p None (debug_list l) c)
  else
    (exists e, tracker_from v = Ok e /\ tracker_value e = Some v /\ all_utf8 v) \/
    (tracker_from v = Err EUtf8 /\ ~ all_utf8 v).

Lemma tracker_from_typed : forall v, vtyped ba_ReplayTrackerEEventId v = true -> tracker_result v.
Proof.
  intros v H. destruct (vt_choice _ _ _ H) as (z & s & t & w & -> & Hin & Hw). clear H. unfold tracker_result. cbn [variant].
  cbn [In] in Hin.
  repeat match goal with Hin : _ \/ _ |- _ => destruct Hin as [E|Hin]; [apply (f_equal (fun x => (snd (fst x), snd x))) in E; cbn [fst snd] in E|] end;
  try (injection E as <- <-; cbn [String.eqb Ascii.eqb Bool.eqb]).
  - destruct (player_stats_exact _ Hw) as (p & ss & st & -> & E & Hs). exists p, ss, st. auto.
  - exact (born_exact _ Hw).
  - exact (died_exact _ Hw).
  - exact (owner_exact _ Hw).
  - exact (type_exact _ Hw).
  - destruct (upgrade_exact _ Hw) as (p & l & c & -> & Hl & E). eexists. split; [exact E|]. split; [reflexivity|]. unfold name_or_debug.
    destruct (from_utf8_cases l) as [(s' & Es)|Es]; rewrite Es.
    + left. cbn [tracker_value ug_player_id ug_name ug_count]. unfold v_str. rewrite (from_utf8_bytes l s' Hl Es). reflexivity.
    + right. exists p, l, c. rewrite (show_bytes_debug l Hl). auto.
  - exact (init_exact _ Hw).
  - exact (done_exact _ Hw).
  - exact (positions_exact _ Hw).
  - exact (setup_exact _ Hw).
  - destruct Hin.
Qed.

(** ** The list of statistics by path *)
Fixpoint underscored (s : string) : string :=
  match s with EmptyString => EmptyString | String a s' => String (if Ascii.eqb a "/"%char then "_"%char else a) (underscored s') end.
Lemma prop_paths : forall s, map fst (as_prop_name_value_vec s) = map fst prop_table.
Proof. intros s. unfold as_prop_name_value_vec. rewrite map_map. reflexivity. Qed.
Lemma prop_values : forall s path x, In (path, x) (as_prop_name_value_vec s) -> x = stat (underscored path) s.
Proof.
  intros s path x Hi. unfold as_prop_name_value_vec in Hi. apply in_map_iff in Hi as ([p n] & E & Hi). cbn [fst snd] in E. injection E as <- <-.
  assert (Hf : Forall (fun x => underscored (fst x) = snd x) prop_table) by (repeat constructor).
  rewrite Forall_forall in Hf. specialize (Hf _ Hi). cbn [fst snd] in Hf. now rewrite Hf.
Qed.
Lemma prop_complete : forall w ss st, vtyped ba_ReplayTrackerSPlayerStats w = true -> w = VStruct ss -> stats_from w = Ok st ->
  map (fun x => ("m_score_value_" ++ underscored (fst x))%string) (as_prop_name_value_vec st) = map fst ss.
Proof.
  intros w ss st H -> E. destruct (stats_ok _ H) as (ss' & st' & E1 & E2 & [Hs _]). injection E1 as <-. 
  assert (st' = st) by congruence. subst st'. rewrite Hs.
  assert (En : map fst st = map (fun x => fst (fst x)) stats_table).
  { clear -E. unfold stats_from in E. revert st E. induction stats_table as [|[[n src] d] l IH]; intros st E; cbn [map_out] in E.
    - injection E as <-. reflexivity.
    - apply obind_ok in E as ([n' z] & E1 & E). apply obind_ok in E as (bs & E2 & E). injection E as <-.
      apply obind_ok in E1 as (z0 & _ & E1). injection E1 as <- _. cbn [map fst]. f_equal. now apply IH. }
  rewrite <- (map_map fst (append "m_score_value_") st), En.
  rewrite <- (map_map fst (fun p => ("m_score_value_" ++ underscored p)%string)), prop_paths. reflexivity.
Qed.

(** ** From bytes *)
Lemma tracker_from_parsed : forall m p l r v, bytes_ok l -> vparse m (tracker_type p) l = Ok (r, v) -> tracker_result v.
Proof. intros m p l r v Hl E. apply tracker_from_typed. destruct p; exact (proj2 (vparse_typed m ba_ReplayTrackerEEventId eq_refl l r v Hl E)). Qed.
Lemma stats_paths_parsed : forall m l r v ss st, bytes_ok l -> vparse m ba_ReplayTrackerSPlayerStats l = Ok (r, v) -> v = VStruct ss ->
  stats_from v = Ok st ->
  map (fun x => ("m_score_value_" ++ underscored (fst x))%string) (as_prop_name_value_vec st) = map fst ss /\
  forall path x, In (path, x) (as_prop_name_value_vec st) -> x = stat (underscored path) st.
Proof.
  intros m l r v ss st Hl E -> Es. split; [|apply prop_values].
  eapply prop_complete; [exact (proj2 (vparse_typed m ba_ReplayTrackerSPlayerStats eq_refl l r _ Hl E))|reflexivity|exact Es].
Qed.
