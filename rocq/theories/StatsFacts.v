(** * Facts about directory statistics *)
From Coq Require Import Sorted Permutation.
From Verif Require Import Base Types Utf8 Versioned ByteTypes ConvertSpec Dispatch Events Balance Lobby DetailsData DetailsSpec DetailsFacts State Merge Rows Files Archive ArchiveSpec ArchiveFacts.
#[local] Open Scope string_scope.
#[local] Open Scope Z_scope.
#[local] Open Scope list_scope.

(** ** Counting *)
Definition counts (names : list string) (l : list (string * Z)) : Prop :=
  NoDup (map fst l) /\ (forall n, In n names <-> In n (map fst l)) /\ Forall (fun x => snd x = occurrences (fst x) names) l.
Lemma occurrences_app : forall n a b, occurrences n (a ++ b) = occurrences n a + occurrences n b.
Proof. induction a as [|x a IH]; intros b; cbn [app occurrences]; [reflexivity|]. rewrite IH. lia. Qed.
Lemma occurrences_none : forall n l, ~ In n l -> occurrences n l = 0.
Proof. induction l as [|x l IH]; intros Hn; cbn [occurrences]; [reflexivity|]. destruct (String.eqb_spec x n); [destruct Hn; now left|]. rewrite IH; [reflexivity|]. intros Q. apply Hn. now right. Qed.
Lemma count_up_keys : forall k l n, In n (map fst (count_up k l)) <-> n = k \/ In n (map fst l).
Proof.
  intros k l n. induction l as [|[k' z] l IH]; cbn [count_up map fst]; [cbn; intuition auto|]. destruct (String.eqb_spec k' k) as [->|Hk]; cbn [map fst In]; [intuition auto|]. rewrite IH. intuition auto.
Qed.
Lemma count_up_nodup : forall k l, NoDup (map fst l) -> NoDup (map fst (count_up k l)).
Proof.
  intros k l. induction l as [|[k' z] l IH]; cbn [count_up map fst]; intros Hn; [constructor; [intros []|constructor]|]. inversion Hn as [|? ? Hk Hn']; subst.
  destruct (String.eqb_spec k' k) as [->|Hd]; cbn [map fst]; [constructor; assumption|]. constructor; [|auto]. rewrite count_up_keys. intros [->|Q]; auto.
Qed.
Lemma count_up_values : forall k l names, ~ In k (map fst l) \/ NoDup (map fst l) -> (~ In k (map fst l) -> occurrences k names = 0) ->
  Forall (fun x => snd x = occurrences (fst x) names) l -> Forall (fun x => snd x = occurrences (fst x) (names ++ [k])) (count_up k l).
Proof.
  intros k l names. induction l as [|[k' z] l IH]; cbn [count_up map fst]; intros Hd H0 F.
  - constructor; [|constructor]. cbn [fst snd]. rewrite occurrences_app. cbn [occurrences]. rewrite String.eqb_refl. rewrite H0 by (intros []). reflexivity.
  - inversion F as [|? ? Fx F']; subst. cbn [fst snd] in Fx. destruct (String.eqb_spec k' k) as [->|Hk].
    + assert (Hnot : ~ In k (map fst l)) by (destruct Hd as [Hd|Hd]; [destruct Hd; now left|now inversion Hd]).
      constructor; [cbn [fst snd]; rewrite occurrences_app; cbn [occurrences]; rewrite String.eqb_refl; lia|].
      rewrite Forall_forall in *. intros [k2 z2] Hx. rewrite (F' _ Hx). cbn [fst]. rewrite occurrences_app. cbn [occurrences].
      destruct (String.eqb_spec k k2) as [<-|_]; [|lia]. destruct Hnot. apply in_map_iff. exists (k, z2). auto.
    + constructor.
      * cbn [fst snd]. rewrite occurrences_app. cbn [occurrences]. destruct (String.eqb_spec k k'); [congruence|]. lia.
      * apply IH; [destruct Hd as [Hd|Hd]; [left; intros Q; apply Hd; now right|right; now inversion Hd]| |exact F']. intros Q. apply H0. intros [Q'|Q']; congruence.
Qed.
Lemma counts_up : forall names l k, counts names l -> counts (names ++ [k]) (count_up k l).
Proof.
  intros names l k (H1 & H2 & H3). split; [now apply count_up_nodup|]. split.
  - intros n. rewrite count_up_keys, in_app_iff, H2. cbn [In]. intuition auto.
  - apply count_up_values; [now right| |exact H3]. intros Q. apply occurrences_none. now rewrite H2.
Qed.
Lemma counts_many : forall ks names l, counts names l -> counts (names ++ ks) (fold_left (fun f u => count_up u f) ks l).
Proof.
  induction ks as [|k ks IH]; intros names l Hc; cbn [fold_left]; [now rewrite app_nil_r|]. replace (names ++ k :: ks) with ((names ++ [k]) ++ ks) by now rewrite <- app_assoc.
  apply IH. now apply counts_up.
Qed.
Lemma counts_nil : counts [] [].
Proof. split; [constructor|]. split; [intros n; reflexivity|constructor]. Qed.
Lemma counts_permutation : forall names l l', Permutation l l' -> counts names l -> counts names l'.
Proof.
  intros names l l' Hp (H1 & H2 & H3). split; [exact (Permutation_NoDup (Permutation_map fst Hp) H1)|]. split.
  - intros n. rewrite H2. split; apply Permutation_in; [|symmetry]; now apply Permutation_map.
  - rewrite Forall_forall in *. intros x Hx. apply H3. eapply Permutation_in; [symmetry; exact Hp|exact Hx].
Qed.

(** ** Sorting *)
Lemma insert_perm : forall x l, Permutation (x :: l) (insert_down x l).
Proof. intros x l. induction l as [|y l IH]; cbn [insert_down]; [reflexivity|]. destruct (snd y <=? snd x); [reflexivity|]. eapply perm_trans; [apply perm_swap|]. now constructor. Qed.
Lemma sort_perm : forall l, Permutation l (sort_down l).
Proof. induction l as [|x l IH]; cbn [sort_down]; [constructor|]. eapply perm_trans; [|apply insert_perm]. now constructor. Qed.
Lemma insert_sorted : forall x l, StronglySorted (fun x y : string * Z => snd y <= snd x) l -> StronglySorted (fun x y : string * Z => snd y <= snd x) (insert_down x l).
Proof.
  intros x l. induction 1 as [|y l S IH F]; cbn [insert_down]; [constructor; constructor|]. destruct (Z.leb_spec (snd y) (snd x)).
  - constructor; [now constructor|]. constructor; [exact H|]. rewrite Forall_forall in *. intros z Hz. specialize (F z Hz). cbn in F. lia.
  - constructor; [exact IH|]. rewrite Forall_forall in *. intros z Hz. apply (Permutation_in z (Permutation_sym (insert_perm x l))) in Hz. destruct Hz as [<-|Hz]; [lia|]. exact (F z Hz).
Qed.
Lemma sort_sorted : forall l, StronglySorted (fun x y : string * Z => snd y <= snd x) (sort_down l).
Proof. induction l as [|x l IH]; cbn [sort_down]; [constructor|]. now apply insert_sorted. Qed.
Lemma top_frequent : forall k names l, counts names l -> most_frequent k names (firstn k (sort_down l)).
Proof.
  intros k names l Hc. assert (Hs := counts_permutation names l _ (sort_perm l) Hc). pose proof (sort_sorted l) as S. set (s := sort_down l) in *. clearbody s. destruct Hs as (H1 & H2 & H3).
  assert (Es : s = firstn k s ++ skipn k s) by now rewrite firstn_skipn. split; [|split; [|split; [|split]]].
  - rewrite Es, map_app in H1. revert H1. generalize (map fst (skipn k s)) (map fst (firstn k s)). intros b a. induction a as [|x a IH]; cbn [app]; intros Hn; [constructor|].
    inversion Hn as [|? ? Hx Hn']; subst. constructor; [|auto]. intros Q. apply Hx. apply in_or_app. now left.
  - rewrite Forall_forall in *. intros x Hx. assert (Hi : In x s) by (rewrite Es; apply in_or_app; now left). split; [|auto]. apply H2. now apply in_map.
  - rewrite Es in S. exact (proj1 (sorted_app _ _ _ _ S)).
  - rewrite firstn_length. lia.
  - intros n Hn. apply H2 in Hn. apply in_map_iff in Hn as (x & <- & Hx). assert (Hx' := Hx). rewrite Es in Hx'. apply in_app_or in Hx' as [Hi|Hi]; [left; now apply in_map|]. right. split.
    + rewrite firstn_length. destruct (Nat.leb_spec k (length s)); [lia|]. rewrite skipn_all2 in Hi by lia. destruct Hi.
    + rewrite Es in S. apply sorted_app in S as [_ S]. apply Forall_forall. intros y Hy. rewrite Forall_forall in H3. rewrite <- (H3 x Hx). exact (S y x Hy Hi).
Qed.

(** ** The loop *)
Lemma names_playing : forall x, get_player_names (joined_details x) = playing x.
Proof. intros. reflexivity. Qed.
Lemma versions_has : forall all v, existsb (Z.eqb v) (map (fun e : (Z * string) * bal_unit => fst (fst e)) all) = has_balance all v.
Proof. intros all v. unfold has_balance. induction all as [|e all IH]; cbn [map existsb]; [reflexivity|]. rewrite IH. f_equal. apply Z.eqb_sym. Qed.
Lemma loop_ok : forall m w all l ab users maps un mn ab' users' maps', counts un users -> counts mn maps ->
  stats_loop m w (map (fun e : (Z * string) * bal_unit => fst (fst e)) all) l ab users maps = Ok (ab', users', maps') ->
  ab' = ab + Z.of_nat (length (filter (fun d => has_balance all (xi_version d)) l)) /\
  counts (un ++ flat_map playing (readable_details m w l)) users' /\ counts (mn ++ map xd_title (readable_details m w l)) maps'.
Proof.
  intros m w all. induction l as [|d l IH]; intros ab users maps un mn ab' users' maps' Hu Hm E; cbn [stats_loop readable_details filter] in *.
  - injection E as <- <- <-. cbn [length flat_map map]. rewrite !app_nil_r. split; [lia|]. auto.
  - cbv zeta in E. rewrite versions_has in E. destruct (details_try_from m w d) as [x|e|]; [| |discriminate].
    + apply (IH _ _ _ (un ++ playing x) (mn ++ [xd_title x])) in E; [|rewrite <- names_playing; now apply counts_many|now apply counts_up]. destruct E as (E1 & E2 & E3).
      cbn [flat_map map]. rewrite app_assoc. replace (mn ++ xd_title x :: map xd_title (readable_details m w l)) with ((mn ++ [xd_title x]) ++ map xd_title (readable_details m w l)) by now rewrite <- app_assoc.
      split; [|auto]. destruct (has_balance all (xi_version d)); cbn [length]; lia.
    + apply (IH _ _ _ un mn) in E; [|assumption|assumption]. destruct E as (E1 & E2 & E3). split; [|auto]. destruct (has_balance all (xi_version d)); cbn [length]; lia.
Qed.
Lemma loop_panic : forall m w vs l ab users maps, (forall e, stats_loop m w vs l ab users maps <> Err e) /\
  (stats_loop m w vs l ab users maps = Panic <-> Exists (fun d => details_try_from m w d = Panic) l).
Proof.
  intros m w vs. induction l as [|d l IH]; intros ab users maps; cbn [stats_loop].
  - split; [discriminate|]. split; [discriminate|]. intros Q. inversion Q.
  - cbv zeta. rewrite Exists_cons. destruct (details_try_from m w d) as [x|e|].
    + match goal with |- context [stats_loop m w vs l ?a ?b ?c] => destruct (IH a b c) as [I1 I2] end. split; [exact I1|]. rewrite I2. intuition discriminate.
    + match goal with |- context [stats_loop m w vs l ?a ?b ?c] => destruct (IH a b c) as [I1 I2] end. split; [exact I1|]. rewrite I2. intuition discriminate.
    + split; [discriminate|]. tauto.
Qed.

(** ** Reading the files *)
Lemma try_read_same : forall m w p i, try_read_init_data m w p i <> Panic -> try_read_init_data m w p i = init_try_from m w p i.
Proof. intros m w p i. unfold try_read_init_data, init_try_from. destruct (open_file w (path_string p)) as [a|e|]; cbn [obind]; [|reflexivity|reflexivity]. destruct (path_text p); congruence. Qed.
Lemma try_read_panics : forall m w p i, world_bytes w -> (try_read_init_data m w p i = Panic <-> path_string p <> "" /\
  (w (path_string p) = Panic \/ exists a, w (path_string p) = Ok a /\
    (~ is_utf8 (bytes_of_str (path_string p)) \/ header_panics m a \/ (exists b, header_of m a signature_text b) /\ ar_sector a "replay.initData" = Panic))).
Proof.
  intros m w p i Hw. unfold try_read_init_data. rewrite obind_panic, open_file_panic. split.
  - intros [[Hn E]|(a & Ea & E)]; [tauto|]. apply open_file_ok in Ea as [Ea Hn]. split; [exact Hn|]. right. exists a. split; [exact Ea|].
    destruct (path_text_spec p) as [[Et Hu]|[Et Hu]]; rewrite Et in E; [|now left]. right. now apply (file_init_panic m _ _ a (Hw _ _ Ea)) in E.
  - intros [Hn [E|(a & Ea & E)]]; [auto|]. right. exists a. split; [unfold open_file; destruct (String.eqb_spec (path_string p) ""); [congruence|exact Ea]|].
    destruct (path_text_spec p) as [[Et Hu]|[Et Hu]]; rewrite Et; [|reflexivity]. apply (file_init_panic m _ _ a (Hw _ _ Ea)). destruct E as [E|E]; [contradiction|exact E].
Qed.
Lemma readable_same : forall m w files i inits, readable_from (try_read_init_data m w) i files = Ok inits -> inits = readable_replays m w i files.
Proof.
  intros m w. induction files as [|p files IH]; intros i inits E; cbn [readable_from readable_replays] in *; [injection E as <-; reflexivity|].
  pose proof (try_read_same m w p i) as Hs. destruct (try_read_init_data m w p i) as [d|e|] eqn:Et; [| |discriminate]; rewrite <- (Hs ltac:(discriminate)).
  - apply obind_ok in E as (bs & Eb & E). injection E as <-. f_equal. now apply IH.
  - now apply IH.
Qed.
Lemma details_panics : forall m w p i d, world_bytes w -> try_read_init_data m w p i = Ok d -> exists a, w (path_string p) = Ok a /\ path_string p <> "" /\
  says_init m a d /\ xi_fs_id d = i /\ file_init m (path_string p) i a = Ok d /\
  (details_try_from m w d = Panic <-> ar_sector a "replay.details" = Panic \/ exists l, ar_sector a "replay.details" = Ok l /\ vparse m ba_GameSDetails l = Panic).
Proof.
  intros m w p i d Hw E. unfold try_read_init_data in E. apply obind_ok in E as (a & Ea & E). assert (Eo := Ea). apply open_file_ok in Ea as [Ea Hn]. exists a. split; [exact Ea|]. split; [exact Hn|].
  destruct (path_text_spec p) as [[Et Hu]|[Et Hu]]; rewrite Et in E; [|discriminate]. assert (Ha := Hw _ _ Ea). destruct (file_init_says m _ _ a d Ha E) as (Hs & Hi & Hf).
  split; [exact Hs|]. split; [exact Hi|]. split; [exact E|]. unfold details_try_from. rewrite Hf, Eo. cbn [obind]. unfold file_details.
  rewrite (proj2 (checked_header_ok m a (xi_version d) Ha) (proj1 Hs)). cbn [obind]. rewrite obind_panic.
  assert (K : forall l, ar_sector a "replay.details" = Ok l -> (match dispatch_details (xi_version d) with P75689 | P87702 => details_new m (xi_fs_id d) l end = Panic <-> vparse m ba_GameSDetails l = Panic)).
  { intros l El. replace (match dispatch_details (xi_version d) with P75689 | P87702 => details_new m (xi_fs_id d) l end) with (details_new m (xi_fs_id d) l) by (destruct (dispatch_details (xi_version d)); reflexivity).
    pose proof (details_new_cases m (xi_fs_id d) l (proj2 Ha _ _ El)) as C. destruct (vparse m ba_GameSDetails l) as [[r v]|e|].
    - destruct C as [(x & Ex & _)|[Ex _]]; rewrite Ex; split; discriminate.
    - rewrite C. split; discriminate.
    - rewrite C. tauto. }
  split; (intros [Q|(l & El & Q)]; [now left|right; exists l; split; [exact El|now apply (K l El)]]).
Qed.

(** ** The whole scan *)
Lemma scan_ok : forall m t w all order p files s, walks order -> get_matching_files m t 10 p 1000000 = Ok files -> scan_path m t w all order p = Ok s ->
  let replays := readable_replays m w 0 files in
  ds_total s = Z.of_nat (length files) /\ ds_supported s = Z.of_nat (length replays) /\
  ds_ability s = Z.of_nat (length (filter (fun d => has_balance all (xi_version d)) replays)) /\
  most_frequent 10 (flat_map playing (readable_details m w replays)) (ds_players s) /\
  most_frequent 10 (map xd_title (readable_details m w replays)) (ds_maps s).
Proof.
  intros m t w all order p files s Ho Ef E. unfold scan_path in E. rewrite Ef in E. cbn [obind] in E. apply obind_ok in E as (inits & Ei & E). apply obind_ok in E as ([[ab users] maps] & El & E).
  assert (Es : s = mk_dir_stats (Z.of_nat (length files)) (Z.of_nat (length inits)) ab (firstn 10 (sort_down (order users))) (firstn 10 (sort_down (order maps)))) by congruence. subst s. clear E. rewrite <- (readable_same m w files 0 inits Ei). cbv zeta. destruct (loop_ok m w all inits 0 [] [] [] [] ab users maps counts_nil counts_nil El) as (L1 & L2 & L3).
  cbn [ds_total ds_supported ds_ability ds_players ds_maps]. split; [reflexivity|]. split; [reflexivity|]. split; [lia|].
  split; apply top_frequent; (eapply counts_permutation; [apply Ho|assumption]).
Qed.
Lemma scan_panic : forall m t w all order p files, world_bytes w -> get_matching_files m t 10 p 1000000 = Ok files ->
  (forall e, scan_path m t w all order p <> Err e) /\ (scan_path m t w all order p = Panic <-> Exists (scan_panics m w) files).
Proof.
  intros m t w all order p files Hw Ef. destruct (readable_spec _ _ (try_read_init_data m w) files 0) as (K1 & K2 & K3). unfold scan_path. rewrite Ef. cbn [obind].
  destruct (readable_from (try_read_init_data m w) 0 files) as [inits|e|] eqn:Ei; cbn [obind].
  - destruct (K3 inits eq_refl) as (ks & _ & S2 & S3). match goal with |- context [stats_loop m w ?vs inits ?x ?y ?z] => destruct (loop_panic m w vs inits x y z) as [L1 L2]; destruct (stats_loop m w vs inits x y z) as [[[ab us] mp]|e|] eqn:El end; cbn [obind].
    + split; [discriminate|]. split; [discriminate|]. intros X. exfalso. apply Exists_exists in X as (q & Hq & Hs). destruct Hs as [Hn Hs]. apply In_nth_error in Hq as (k & Hk).
      assert (Np : try_read_init_data m w q (0 + Z.of_nat k) <> Panic) by (intros Q; assert (C : @Ok (list full_init) inits = Panic) by (apply (proj2 K1); eauto); discriminate C).
      assert (Hx : exists a, w (path_string q) = Ok a /\ (exists d, says_init m a d /\ file_init m (path_string q) (xi_fs_id d) a = Ok d) /\ (ar_sector a "replay.details" = Panic \/ exists l, ar_sector a "replay.details" = Ok l /\ vparse m ba_GameSDetails l = Panic)).
      { destruct Hs as [Hs|(a & Ea & [Hs|[Hs|[Hs|Hs]]])]; [| | | |exists a; tauto]; destruct Np; apply (try_read_panics m w q _ Hw); (split; [exact Hn|]); [now left|right; exists a; tauto..]. }
      destruct Hx as (a & Ea & (d & Hs' & Ed) & Hd).
      assert (Hb : exists d', try_read_init_data m w q (0 + Z.of_nat k) = Ok d').
      { unfold try_read_init_data in Np |- *. assert (Eo : open_file w (path_string q) = Ok a) by (unfold open_file; destruct (String.eqb_spec (path_string q) ""); [congruence|exact Ea]). rewrite Eo in *. cbn [obind] in *.
        destruct (path_text_spec q) as [[Et Hu]|[Et Hu]]; rewrite Et in *; [|congruence]. revert Ed. unfold file_init. destruct (checked_header m a) as [b|e|]; cbn [obind]; [|discriminate..].
        destruct (ar_sector a "replay.initData") as [l|e|]; cbn [obind]; [|discriminate..]. unfold init_new. destruct (dispatch_init b); (destruct (BitInterp.bparse m BitTypes.bp_ReplaySInitData (l, 0%nat)) as [[c v]|e|]; cbn [obind]; [|discriminate..]; destruct (init_from v); cbn [obind]; [|discriminate..]; eauto). }
      destruct Hb as (d' & Ed'). assert (Hin : In d' inits).
      { specialize (S3 k q d' Hk Ed'). clear - S2 S3 Hk Ed'. induction S2 as [|k' x ks xs (y & Q & R) _ IH]; [destruct S3|]. destruct S3 as [->|S3]; [left; congruence|right; auto]. }
      destruct (details_panics m w q _ d' Hw Ed') as (a' & Ea' & _ & _ & _ & _ & Hdp). assert (a' = a) by congruence. subst a'. apply Hdp in Hd.
      assert (C : @Ok (Z * list (string * Z) * list (string * Z)) (ab, us, mp) = Panic) by (apply (proj2 L2); apply Exists_exists; eauto). discriminate C.
    + destruct (L1 e eq_refl).
    + split; [discriminate|]. split; [|reflexivity]. intros _.
      assert (Hx : Exists (fun d => details_try_from m w d = Panic) inits) by (apply (proj1 L2); reflexivity); apply Exists_exists in Hx as (d' & Hi & Hp);
        assert (Hk : exists k q, nth_error files k = Some q /\ try_read_init_data m w q (0 + Z.of_nat k) = Ok d') by (clear - S2 Hi; induction S2 as [|k' x ks xs (y & Q & R) _ IH]; [destruct Hi|]; destruct Hi as [->|Hi]; eauto);
        destruct Hk as (k & q & Hk & Ed); apply Exists_exists; exists q; (split; [eapply nth_error_In; eauto|]); destruct (details_panics m w q _ d' Hw Ed) as (a & Ea & Hn & Hs & Hi' & Ef' & Hdp);
        (split; [exact Hn|]); right; exists a; (split; [exact Ea|]); right; right; right; (split; [exists d'; rewrite Hi'; auto|]); now apply Hdp.
  - destruct (K2 e eq_refl).
  - split; [discriminate|]. split; [|reflexivity]. intros _. destruct (proj1 K1 eq_refl) as (k & q & Q & R). apply Exists_exists. exists q. split; [eapply nth_error_In; eauto|].
    apply (try_read_panics m w q _ Hw) in R as [Hn R]. split; [exact Hn|]. destruct R as [R|(a & Ea & R)]; [now left|]. right. exists a. tauto.
Qed.
