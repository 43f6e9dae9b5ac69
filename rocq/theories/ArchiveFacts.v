(** * Facts about replay files *)
From Coq Require Import Sorted Permutation.
From Verif Require Import Base Types Utf8 Utf8Facts Versioned ByteTypes ByteFacts ConvertSpec Typed BitSpec BitInterp BitTypes Dispatch Events ConvertFacts ConvertTracker Iterators Balance Lobby DetailsData DetailsSpec DetailsFacts State StateSpec Merge MergeSpec Rows Files Archive ArchiveSpec.
From Verif Require Import Convert.
#[local] Open Scope string_scope.
#[local] Open Scope Z_scope.
#[local] Open Scope list_scope.

(** ** Headers *)
Lemma bytes_eqb_eq : forall a b, bytes_eqb a b = true <-> a = b.
Proof.
  induction a as [|x a IH]; intros [|y b]; cbn [bytes_eqb]; try (split; congruence).
  rewrite andb_true_iff, Z.eqb_eq, IH. split; [intros [-> ->]; reflexivity|]. intros E. injection E. auto.
Qed.
Lemma signature_eq : replay_signature = signature_text.
Proof. vm_compute. reflexivity. Qed.
Lemma header_conv : forall v, vtyped ba_ReplaySHeader v = true -> exists s b,
  get to_bytes "m_signature" v = Ok s /\ get (get to_int "m_base_build") "m_version" v = Ok b /\
  shows "m_signature" is_bytes v s /\ shows "m_version" (shows "m_base_build" is_int) v b /\ 0 <= b < two32.
Proof.
  intros v Hv. open_v. destruct (vt_blob _ Hw) as (s & -> & _). destruct (vt_struct _ _ Hw0) as (us & -> & Hu). repeat vf1.
  match goal with Q : vtyped (TInt IU32) ?x = true |- context [("m_base_build", ?x)] => destruct (vt_int _ _ Q) as (b & -> & Hb) end.
  exists s, b. split; [reflexivity|]. split; [reflexivity|].
  split; [eapply shows_lookup; reflexivity|]. split; [|cbn [in_ity] in Hb; unfold in_u32 in Hb; lia].
  eapply shows_lookup; [reflexivity|]. eapply shows_lookup; reflexivity.
Qed.
Lemma checked_header_cases : forall m a, archive_bytes a ->
  match checked_header m a with
  | Ok b => header_of m a signature_text b /\ 0 <= b < two32
  | Err e => exists l, ar_user a = Some l /\ vparse m ba_ReplaySHeader l = Err e
  | Panic => header_panics m a
  end.
Proof.
  intros m a [Hu _]. unfold checked_header, read_protocol_header, header_panics. destruct (ar_user a) as [l|] eqn:El; [|now left].
  destruct (vparse m ba_ReplaySHeader l) as [[r v]|e|] eqn:E; cbn [obind].
  - pose proof (proj2 (vparse_typed m ba_ReplaySHeader eq_refl l r v (Hu l eq_refl) E)) as Hv.
    destruct (header_conv v Hv) as (s & b & Es & Eb & S1 & S2 & Hb). rewrite Es. cbn [obind]. rewrite Eb. cbn [obind].
    assert (Hh : header_of m a s b) by (exists l, r, v; auto).
    destruct (bytes_eqb s replay_signature) eqn:Ee.
    + apply bytes_eqb_eq in Ee as ->. rewrite signature_eq in Hh. auto.
    + right. right. exists s, b. split; [exact Hh|]. intros ->. rewrite <- signature_eq in Ee. assert (bytes_eqb replay_signature replay_signature = true) by now apply bytes_eqb_eq. congruence.
  - exists l. auto.
  - right. left. exists l. auto.
Qed.
(** The fields of a header are unique, so are its signature and build. *)
Lemma struct_shows_unique : forall A n (R : val -> A -> Prop) v a w, (forall u x y, R u x -> R u y -> x = y) ->
  (forall fs, v = VStruct fs -> NoDup (map fst fs)) -> shows n R v a -> shows n R v w -> a = w.
Proof.
  intros A n R v a w Hr Hn (fs & x & -> & Hx & Ra) (fs' & y & E & Hy & Rw). injection E as <-.
  specialize (Hn fs eq_refl). assert (x = y); [|subst; eapply Hr; eassumption].
  clear Ra Rw. induction fs as [|[k u] fs IH]; [destruct Hx|]. cbn [map fst] in Hn. inversion Hn as [|? ? Hk Hn']; subst.
  destruct Hx as [E|Hx], Hy as [E'|Hy].
  - congruence.
  - injection E as -> ->. destruct Hk. apply in_map_iff. exists (n, y). auto.
  - injection E' as -> ->. destruct Hk. apply in_map_iff. exists (n, x). auto.
  - auto.
Qed.
Lemma header_unique : forall m a s b s' b', archive_bytes a -> header_of m a s b -> header_of m a s' b' -> s = s' /\ b = b'.
Proof.
  intros m a s b s' b' [Hu _] (l & r & v & El & E & S1 & B1) (l' & r' & v' & El' & E' & S2 & B2).
  assert (l' = l) by congruence. subst l'. assert (v' = v) by congruence. subst v'.
  pose proof (proj2 (vparse_typed m ba_ReplaySHeader eq_refl l r v (Hu l El) E)) as Hv. clear E E'.
  open_v. destruct (vt_struct _ _ Hw0) as (us & -> & Hus). repeat vf1.
  split.
  - refine (struct_shows_unique _ _ _ _ _ _ _ _ S1 S2); [unfold is_bytes; congruence|]. intros fs Ef. injection Ef as <-. cbn [map fst]. repeat (constructor; [cbn; intuition discriminate|]). constructor.
  - destruct B1 as (f1 & u1 & F1 & I1 & B1), B2 as (f2 & u2 & F2 & I2 & B2). injection F1 as <-. injection F2 as <-.
    cbn [In] in I1, I2.
    repeat match goal with
    | Q : _ \/ _ |- _ => destruct Q as [Q|Q]; [try discriminate Q|]
    | Q : False |- _ => destruct Q
    end.
    injection I1 as <-. injection I2 as <-.
    refine (struct_shows_unique _ _ _ _ _ _ _ _ B1 B2); [unfold is_int; congruence|]. intros fs Ef. injection Ef as <-. cbn [map fst]. repeat (constructor; [cbn; intuition discriminate|]). constructor.
Qed.

(** ** Readers *)
Lemma obind_panic : forall A B (x : outcome A) (f : A -> outcome B), obind x f = Panic <-> x = Panic \/ exists a, x = Ok a /\ f a = Panic.
Proof. intros A B [a|e|] f; cbn [obind]; split; try tauto; try (intros Q; discriminate Q); [eauto|intros [Q|(b & Q & R)]; [discriminate Q|congruence]|intros [Q|(b & Q & R)]; discriminate Q]. Qed.
Lemma checked_header_panic : forall m a, archive_bytes a -> (checked_header m a = Panic <-> header_panics m a).
Proof.
  intros m a Ha. pose proof (checked_header_cases m a Ha) as C. destruct (checked_header m a) as [b|e|] eqn:E.
  - split; [discriminate|]. destruct C as [C Hb]. intros [Hn|[(l & El & Hp)|(s & b' & Hh & Hs)]].
    + destruct C as (l & r & v & El & _). congruence.
    + destruct C as (l' & r & v & El' & Ev & _). congruence.
    + destruct (header_unique m a _ _ _ _ Ha C Hh). congruence.
  - split; [discriminate|]. destruct C as (l & El & Ev). intros [Hn|[(l' & El' & Hp)|(s & b' & (l' & r & v & El' & Ev' & _) & Hs)]]; congruence.
  - tauto.
Qed.
Lemma checked_header_ok : forall m a b, archive_bytes a -> (checked_header m a = Ok b <-> header_of m a signature_text b).
Proof.
  intros m a b Ha. pose proof (checked_header_cases m a Ha) as C. destruct (checked_header m a) as [b'|e|] eqn:E.
  - destruct C as [C Hb]. split; [intros Q; injection Q as <-; exact C|]. intros Hh. destruct (header_unique m a _ _ _ _ Ha C Hh). congruence.
  - destruct C as (l & El & Ev). split; [discriminate|]. intros (l' & r & v & El' & Ev' & _). congruence.
  - split; [discriminate|]. intros Hh. destruct C as [Hn|[(l & El & Hp)|(s & b' & Hh' & Hs)]].
    + destruct Hh as (l & r & v & El & _). congruence.
    + destruct Hh as (l' & r & v & El' & Ev & _). congruence.
    + destruct (header_unique m a _ _ _ _ Ha Hh Hh'). congruence.
Qed.
Lemma header_build_u32 : forall m a b, archive_bytes a -> header_of m a signature_text b -> 0 <= b < two32.
Proof. intros m a b Ha Hh. apply (checked_header_ok m a b Ha) in Hh. pose proof (checked_header_cases m a Ha) as C. rewrite Hh in C. tauto. Qed.
Lemma file_init_says : forall m name fs a d, archive_bytes a -> file_init m name fs a = Ok d ->
  says_init m a d /\ xi_fs_id d = fs /\ xi_file_name d = name.
Proof.
  intros m name fs a d Ha E. unfold file_init in E. apply obind_ok in E as (b & Eb & E). apply obind_ok in E as (l & El & E). apply obind_ok in E as (x & Ex & E).
  injection E as <-. apply (checked_header_ok m a b Ha) in Eb.
  assert (Ex' : init_new m name fs (ar_sha a) l = Ok x) by (destruct (dispatch_init b); exact Ex). clear Ex.
  pose proof (init_new_cases m name fs (ar_sha a) l (proj2 Ha _ _ El)) as C.
  destruct (bparse m bp_ReplaySInitData (l, 0%nat)) as [[c v]|e|] eqn:Ep; [|congruence|contradiction].
  destruct C as [(d' & Ed & Hs & _ & F1 & F2 & F3)|[Ed _]]; [|congruence]. assert (d' = x) by congruence. subst d'.
  split; [|split; assumption]. split; [exact Eb|]. split; [symmetry; exact F2|]. exists l, c, v. auto.
Qed.
Lemma file_init_panic : forall m name fs a, archive_bytes a ->
  (file_init m name fs a = Panic <-> header_panics m a \/ (exists b, header_of m a signature_text b) /\ ar_sector a "replay.initData" = Panic).
Proof.
  intros m name fs a Ha. unfold file_init. rewrite obind_panic, (checked_header_panic m a Ha). split.
  - intros [Hp|(b & Eb & E)]; [now left|]. right. apply (checked_header_ok m a b Ha) in Eb. split; [exists b; exact Eb|].
    apply obind_panic in E as [E|(l & El & E)]; [exact E|]. exfalso. apply obind_panic in E as [E|(x & _ & E)]; [|discriminate].
    assert (E' : init_new m name fs (ar_sha a) l = Panic) by (destruct (dispatch_init b); exact E).
    pose proof (init_new_cases m name fs (ar_sha a) l (proj2 Ha _ _ El)) as C. destruct (bparse m bp_ReplaySInitData (l, 0%nat)) as [[c v]|e|]; [|congruence|contradiction].
    destruct C as [(d' & Ed & _)|[Ed _]]; congruence.
  - intros [Hp|[(b & Hb) E]]; [now left|]. right. exists b. split; [now apply checked_header_ok|]. now rewrite E.
Qed.
Lemma str_of_bytes_of_str : forall s, str_of_bytes (bytes_of_str s) = s.
Proof.
  induction s as [|a s IH]; [reflexivity|]. cbn [bytes_of_str str_of_bytes fold_right]. fold (str_of_bytes (bytes_of_str s)). rewrite IH. f_equal.
  unfold ascii_of_Z, Z_of_ascii. rewrite N2Z.id. apply Ascii.ascii_N_embedding.
Qed.
Lemma bytes_of_str_ok : forall s, bytes_ok (bytes_of_str s).
Proof.
  induction s as [|a s IH]; [constructor|]. cbn [bytes_of_str]. apply bytes_ok_cons. split; [|exact IH]. unfold byte_ok, Z_of_ascii. pose proof (Ascii.N_ascii_bounded a). lia.
Qed.
Lemma path_text_spec : forall p, path_text p = Some (path_string p) /\ is_utf8 (bytes_of_str (path_string p)) \/ path_text p = None /\ ~ is_utf8 (bytes_of_str (path_string p)).
Proof.
  intros p. pose proof (bytes_of_str_ok (path_string p)) as Hb. unfold path_text. destruct (from_utf8_exact _ Hb) as (E1 & E2 & E3). destruct (from_utf8 (bytes_of_str (path_string p))) as [s|e|] eqn:E.
  - left. destruct (proj1 (E1 s) eq_refl) as [-> Ht]. split; [|exact Ht]. f_equal. apply str_of_bytes_of_str.
  - right. split; [reflexivity|]. destruct (from_utf8_cases (bytes_of_str (path_string p))) as [(s & Es)|Es]; [congruence|]. apply (proj1 E2). congruence.
  - contradiction.
Qed.
Lemma open_file_ok : forall w n a, open_file w n = Ok a -> w n = Ok a /\ n <> "".
Proof. intros w n a. unfold open_file. destruct (String.eqb_spec n ""); [discriminate|]. auto. Qed.
Lemma open_file_panic : forall w n, open_file w n = Panic <-> n <> "" /\ w n = Panic.
Proof. intros w n. unfold open_file. destruct (String.eqb_spec n ""); split; try discriminate; try tauto. Qed.
Lemma init_says : forall m w p i d, world_bytes w -> init_try_from m w p i = Ok d ->
  exists a, w (path_string p) = Ok a /\ says_init m a d /\ xi_fs_id d = i /\
    ((is_utf8 (bytes_of_str (path_string p)) /\ xi_file_name d = path_string p) \/ (~ is_utf8 (bytes_of_str (path_string p)) /\ xi_file_name d = "")).
Proof.
  intros m w p i d Hw E. unfold init_try_from in E. apply obind_ok in E as (a & Ea & E). apply open_file_ok in Ea as [Ea _].
  apply (file_init_says m _ _ _ _ (Hw _ _ Ea)) in E as (Hs & Hi & Hn). exists a. split; [exact Ea|]. split; [exact Hs|]. split; [exact Hi|].
  destruct (path_text_spec p) as [[Et Hu]|[Et Hu]]; rewrite Et in Hn; auto.
Qed.
Lemma init_panics : forall m w p i, world_bytes w -> (init_try_from m w p i = Panic <->
  path_string p <> "" /\ (w (path_string p) = Panic \/ exists a, w (path_string p) = Ok a /\
    (header_panics m a \/ (exists b, header_of m a signature_text b) /\ ar_sector a "replay.initData" = Panic))).
Proof.
  intros m w p i Hw. unfold init_try_from. rewrite obind_panic, open_file_panic. split.
  - intros [[Hn E]|(a & Ea & E)]; [tauto|]. apply open_file_ok in Ea as [Ea Hn]. split; [exact Hn|]. right. exists a. split; [exact Ea|]. now apply (file_init_panic m _ _ a (Hw _ _ Ea)) in E.
  - intros [Hn [E|(a & Ea & E)]]; [auto|]. right. exists a. split; [unfold open_file; destruct (String.eqb_spec (path_string p) ""); [congruence|exact Ea]|]. now apply (file_init_panic m _ _ a (Hw _ _ Ea)).
Qed.
(** All readers of a file. *)
Lemma readers_panic : forall m a, header_panics m a -> archive_bytes a ->
  file_tracker_events m a = Panic /\ file_game_events m a = Panic /\ file_message_events m a = Panic /\
  (forall fs, file_details m fs a = Panic) /\ (forall name fs, file_init m name fs a = Panic).
Proof.
  intros m a Hp Ha. apply (checked_header_panic m a Ha) in Hp. unfold file_tracker_events, file_game_events, file_message_events, file_details, file_init. rewrite Hp. cbn [obind]. auto.
Qed.

(** ** Selection *)
Lemma shift_sorted : forall ks, StronglySorted lt ks -> StronglySorted lt (map Datatypes.S ks).
Proof.
  induction 1 as [|k ks S1 IH F]; cbn [map]; [constructor|]. constructor; [exact IH|]. rewrite Forall_forall in *. intros y Hy. apply in_map_iff in Hy as (k' & <- & Hk'). specialize (F _ Hk'). lia.
Qed.
Lemma shift_found : forall A B (f : A -> Z -> outcome B) x l i ks bs,
  Forall2 (fun k b => exists x, nth_error l k = Some x /\ f x (i + 1 + Z.of_nat k) = Ok b) ks bs ->
  Forall2 (fun k b => exists y, nth_error (x :: l) k = Some y /\ f y (i + Z.of_nat k) = Ok b) (map Datatypes.S ks) bs.
Proof.
  induction 1 as [|k b ks bs (y & Q & R) _ IH]; cbn [map]; [constructor|]. constructor; [|exact IH]. exists y. split; [exact Q|]. replace (i + Z.of_nat (Datatypes.S k)) with (i + 1 + Z.of_nat k) by lia. exact R.
Qed.
Lemma readable_spec : forall A B (f : A -> Z -> outcome B) l i,
  (readable_from f i l = Panic <-> exists k x, nth_error l k = Some x /\ f x (i + Z.of_nat k) = Panic) /\
  (forall e, readable_from f i l <> Err e) /\
  forall bs, readable_from f i l = Ok bs -> exists ks, StronglySorted lt ks /\
    Forall2 (fun k b => exists x, nth_error l k = Some x /\ f x (i + Z.of_nat k) = Ok b) ks bs /\
    forall k x b, nth_error l k = Some x -> f x (i + Z.of_nat k) = Ok b -> In k ks.
Proof.
  induction l as [|x l IH]; intros i; cbn [readable_from].
  { split; [|split; [discriminate|]].
    - split; [discriminate|]. intros ([|k] & y & Q & _); discriminate.
    - intros bs E. injection E as <-. exists []. split; [constructor|]. split; [constructor|]. intros [|k] y b Q; discriminate. }
  destruct (IH (i + 1)) as (I1 & I2 & I3). clear IH.
  assert (Hsh : forall k, i + 1 + Z.of_nat k = i + Z.of_nat (Datatypes.S k)) by (intros; lia).
  destruct (f x i) as [b|e|] eqn:Ef.
  - split; [|split].
    + split.
      * destruct (readable_from f (i + 1) l) as [bs|e|]; cbn [obind]; try discriminate. intros _. destruct (proj1 I1 eq_refl) as (k & y & Q & R). exists (Datatypes.S k), y. rewrite <- Hsh. auto.
      * intros ([|k] & y & Q & R); cbn [nth_error] in Q.
        { injection Q as <-. cbn [Z.of_nat] in R. rewrite Z.add_0_r in R. congruence. }
        rewrite <- Hsh in R. rewrite (proj2 I1); [reflexivity|]. eauto.
    + intros e. destruct (readable_from f (i + 1) l) as [bs|e'|] eqn:E; cbn [obind]; try discriminate. destruct (I2 e' eq_refl).
    + intros bs E. apply obind_ok in E as (bs' & E' & E). injection E as <-. destruct (I3 bs' E') as (ks & S1 & S2 & S3).
      exists (O :: map Datatypes.S ks). split; [|split].
      * constructor; [|apply Forall_forall; intros k Hk; apply in_map_iff in Hk as (k' & <- & _); lia].
        now apply shift_sorted.
      * constructor; [exists x; cbn [Z.of_nat]; rewrite Z.add_0_r; auto|]. now apply shift_found.
      * intros [|k] y b' Q R; [now left|]. right. apply in_map. cbn [nth_error] in Q. rewrite <- Hsh in R. eauto.
  - split; [|split].
    + rewrite I1. split.
      * intros (k & y & Q & R). exists (Datatypes.S k), y. rewrite <- Hsh. auto.
      * intros ([|k] & y & Q & R); cbn [nth_error] in Q.
        { injection Q as <-. cbn [Z.of_nat] in R. rewrite Z.add_0_r in R. congruence. }
        rewrite <- Hsh in R. eauto.
    + exact I2.
    + intros bs E. destruct (I3 bs E) as (ks & S1 & S2 & S3). exists (map Datatypes.S ks). split; [|split].
      * now apply shift_sorted.
      * now apply shift_found.
      * intros [|k] y b' Q R; cbn [nth_error] in Q; [injection Q as <-; cbn [Z.of_nat] in R; rewrite Z.add_0_r in R; congruence|]. apply in_map. rewrite <- Hsh in R. eauto.
  - split; [|split].
    + split; [|reflexivity]. intros _. exists O, x. cbn [Z.of_nat]. rewrite Z.add_0_r. auto.
    + discriminate.
    + discriminate.
Qed.
Lemma version_wanted_spec : forall c d, version_wanted c d = true <-> version_between (ip_min c) (ip_max c) (xi_version d).
Proof.
  intros c d. unfold version_wanted, version_between. rewrite andb_true_iff, !negb_true_iff. destruct (ip_min c) as [a|], (ip_max c) as [b|].
  - split; [intros [P Q]; split; intros x E; injection E as <-; lia|]. intros [P Q]. specialize (P a eq_refl). specialize (Q b eq_refl). lia.
  - split; [intros [P Q]; split; intros x E; [injection E as <-; lia|discriminate]|]. intros [P Q]. specialize (P a eq_refl). lia.
  - split; [intros [P Q]; split; intros x E; [discriminate|injection E as <-; lia]|]. intros [P Q]. specialize (Q b eq_refl). lia.
  - split; [intros _; split; discriminate|]. auto.
Qed.
Lemma sorted_filter : forall A (R : A -> A -> Prop) f l, StronglySorted R l -> StronglySorted R (filter f l).
Proof.
  intros A R f l. induction 1 as [|a l S IH F]; cbn [filter]; [constructor|]. destruct (f a); [|exact IH]. constructor; [exact IH|].
  rewrite Forall_forall in *. intros x Hx. apply filter_In in Hx. apply F. tauto.
Qed.
Lemma sorted_app : forall A (R : A -> A -> Prop) l l', StronglySorted R (l ++ l') -> StronglySorted R l /\ forall x y, In x l -> In y l' -> R x y.
Proof.
  induction l as [|a l IH]; intros l' S; [split; [constructor|]; intros x y []|]. cbn [app] in S. inversion S as [|? ? S' F]; subst. destruct (IH l' S') as [I1 I2].
  rewrite Forall_forall in F. split.
  - constructor; [exact I1|]. apply Forall_forall. intros x Hx. apply F. apply in_or_app. now left.
  - intros x y [<-|Hx] Hy; [apply F; apply in_or_app; now right|auto].
Qed.
Lemma readable_inits : forall m w files inits, world_bytes w -> readable_from (init_try_from m w) 0 files = Ok inits ->
  StronglySorted (fun a b => xi_fs_id a < xi_fs_id b) inits /\
  Forall (fun d => exists i p, xi_fs_id d = Z.of_nat i /\ nth_error files i = Some p /\ init_try_from m w p (Z.of_nat i) = Ok d) inits /\
  forall i p d, nth_error files i = Some p -> init_try_from m w p (Z.of_nat i) = Ok d -> In d inits /\ xi_fs_id d = Z.of_nat i.
Proof.
  intros m w files inits Hw E. destruct (readable_spec _ _ (init_try_from m w) files 0) as (_ & _ & K). destruct (K inits E) as (ks & S1 & S2 & S3). clear K E.
  assert (Hid : forall p i d, init_try_from m w p i = Ok d -> xi_fs_id d = i).
  { intros p i d Ed. destruct (init_says m w p i d Hw Ed) as (a & _ & _ & Hi & _). exact Hi. }
  assert (S2' : Forall2 (fun k d => xi_fs_id d = Z.of_nat k /\ exists p, nth_error files k = Some p /\ init_try_from m w p (Z.of_nat k) = Ok d) ks inits).
  { eapply VersionedEncode.Forall2_impl'; [|exact S2]. intros k d (p & Q & R). cbn [Z.add] in R. split; [exact (Hid _ _ _ R)|]. exists p. auto. }
  clear S2. split; [|split].
  - clear S3. revert S1. induction S2' as [|k d ks ds [Hi _] S2' IH]; intros S1; [constructor|]. inversion S1 as [|? ? S1' F]; subst. constructor; [auto|].
    clear IH S1. rewrite Forall_forall in F. induction S2' as [|k' d' ks ds [Hi' _] S2' IH]; [constructor|]. constructor; [|apply IH; [now inversion S1'|intros x Hx; apply F; now right]]. specialize (F k' (or_introl eq_refl)). lia.
  - clear S1 S3. induction S2' as [|k d ks ds (Hi & p & Q & R) S2' IH]; [constructor|]. constructor; [|exact IH]. exists k, p. auto.
  - intros i p d Q R. split; [|exact (Hid _ _ _ R)]. specialize (S3 i p d Q R). clear S1. induction S2' as [|k d' ks ds (Hi & p' & Q' & R') S2' IH]; [destruct S3|].
    destruct S3 as [->|S3]; [left; congruence|right; auto].
Qed.
Lemma choose_ok : forall m t w source c files ds, world_bytes w -> get_matching_files m t (ip_depth c) source (ip_scan_max c) = Ok files ->
  choose_sources m t w source c = Ok ds ->
  ds <> [] /\ Z.of_nat (length ds) <= ip_process_max c /\ StronglySorted (fun a b => xi_fs_id a < xi_fs_id b) ds /\
  Forall (fun d => exists i, xi_fs_id d = Z.of_nat i /\ candidate m w c files i d) ds /\
  forall i d, candidate m w c files i d -> In d ds \/ (Z.of_nat (length ds) = ip_process_max c /\ Forall (fun x => xi_fs_id x < Z.of_nat i) ds).
Proof.
  intros m t w source c files ds Hw Ef E. unfold choose_sources in E. rewrite Ef in E. cbn [obind] in E. apply obind_ok in E as (inits & Ei & E).
  destruct (readable_inits m w files inits Hw Ei) as (R1 & R2 & R3). set (l := filter (version_wanted c) inits) in *. set (n := Z.to_nat (ip_process_max c)) in *.
  assert (Ed : ds = firstn n l /\ ds <> []) by (destruct (firstn n l); [discriminate|injection E as <-; split; [reflexivity|discriminate]]). clear E. destruct Ed as [Ed Hne].
  split; [exact Hne|]. assert (Hlen : (length ds <= n)%nat) by (subst ds; rewrite firstn_length; lia).
  assert (Hn : 0 < ip_process_max c) by (destruct (Z.ltb_spec 0 (ip_process_max c)); [assumption|]; destruct ds as [|d0 ds0]; [congruence|]; cbn [length] in Hlen; subst n; lia).
  split; [subst n; lia|]. assert (Sl : StronglySorted (fun a b => xi_fs_id a < xi_fs_id b) (firstn n l ++ skipn n l)) by (rewrite firstn_skipn; now apply sorted_filter).
  apply sorted_app in Sl as [Sl Sr]. rewrite <- Ed in Sl, Sr. split; [exact Sl|]. split.
  - rewrite Forall_forall in R2 |- *. intros d Hd. assert (Hl : In d l) by (rewrite <- (firstn_skipn n l); apply in_or_app; left; now rewrite <- Ed).
    apply filter_In in Hl as [Hi Hv]. destruct (R2 d Hi) as (i & p & F & Q & R). exists i. split; [exact F|]. exists p. split; [exact Q|]. split; [exact R|]. now apply version_wanted_spec.
  - intros i d (p & Q & R & V). destruct (R3 i p d Q R) as [Hi F]. apply version_wanted_spec in V. assert (Hl : In d l) by (apply filter_In; auto).
    rewrite <- (firstn_skipn n l), <- Ed in Hl. apply in_app_or in Hl as [Hl|Hl]; [now left|]. right. split.
    + assert (length ds = n); [|subst n; lia]. subst ds. rewrite firstn_length. destruct (Nat.leb_spec n (length l)); [lia|]. rewrite skipn_all2 in Hl by lia. destruct Hl.
    + apply Forall_forall. intros x Hx. specialize (Sr x d Hx Hl). lia.
Qed.
Lemma choose_panic : forall m t w source c files, world_bytes w -> get_matching_files m t (ip_depth c) source (ip_scan_max c) = Ok files ->
  (forall e, choose_sources m t w source c <> Err e) /\
  (choose_sources m t w source c = Panic <->
    (exists i p, nth_error files i = Some p /\ init_try_from m w p (Z.of_nat i) = Panic) \/ ip_process_max c <= 0 \/ forall i d, ~ candidate m w c files i d).
Proof.
  intros m t w source c files Hw Ef. destruct (readable_spec _ _ (init_try_from m w) files 0) as (K1 & K2 & _). unfold choose_sources. rewrite Ef. cbn [obind].
  destruct (readable_from (init_try_from m w) 0 files) as [inits|e|] eqn:Ei; cbn [obind].
  - destruct (readable_inits m w files inits Hw Ei) as (R1 & R2 & R3). split; [intros e; destruct (firstn _ _); discriminate|]. split.
    + intros E. right. destruct (Z.leb_spec (ip_process_max c) 0); [now left|]. right. intros i d (p & Q & R & V).
      destruct (R3 i p d Q R) as [Hi _]. apply version_wanted_spec in V. assert (Hl : In d (filter (version_wanted c) inits)) by (apply filter_In; auto).
      destruct (filter (version_wanted c) inits) as [|x l]; [destruct Hl|]. destruct (Z.to_nat (ip_process_max c)) eqn:En; [lia|]. discriminate E.
    + intros [(i & p & Q & R)|[Hn|Hn]].
      * assert (C : @Ok (list full_init) inits = Panic) by (apply (proj2 K1); exists i, p; auto). discriminate C.
      * replace (Z.to_nat (ip_process_max c)) with O by lia. reflexivity.
      * destruct (filter (version_wanted c) inits) as [|x l] eqn:El; [now rewrite firstn_nil|]. exfalso. assert (Hx : In x (filter (version_wanted c) inits)) by (rewrite El; now left).
        apply filter_In in Hx as [Hx Hv]. rewrite Forall_forall in R2. destruct (R2 x Hx) as (i & p & F & Q & R). apply (Hn i x). exists p. split; [exact Q|]. split; [exact R|]. now apply version_wanted_spec.
  - destruct (K2 e eq_refl).
  - split; [discriminate|]. split; [|reflexivity]. intros _. left. destruct (proj1 K1 eq_refl) as (k & x & Q & R). exists k, x. auto.
Qed.
