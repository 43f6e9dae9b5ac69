(** * Facts about balance data in XML files, and about going from one form to the other *)
From Coq Require Import Ascii Permutation.
From Verif Require Import Base Utf8 Convert ConvertSpec DetailsData Files FilesFacts BalanceFiles BalanceSpec BalanceText BalanceFacts BalanceWrite.
#[local] Open Scope string_scope.
#[local] Open Scope Z_scope.
#[local] Open Scope list_scope.

Lemma numeral_range : forall s v, numeral s v -> 0 <= v < two32.
Proof. intros s v (Hv & l & _ & Hd & _). split; [|exact Hv]. now apply digits_mono in Hd. Qed.
Lemma split_dot_xml : forall a, split_dot (a ++ ".xml") = Some (a, "xml").
Proof. induction a as [|c a IH]; [reflexivity|]. cbn [append split_dot]. now rewrite IH. Qed.
Definition is_xml (f : string) : bool := match extension f with Some e => String.eqb e "xml" | None => false end.
Lemma is_xml_spec : forall f, is_xml f = true <-> exists b, b <> "" /\ f = (b ++ ".xml")%string.
Proof.
  intros f. unfold is_xml, extension. split.
  - destruct (split_dot f) as [[a b]|] eqn:E; [|discriminate]. destruct a as [|c a]; [discriminate|]. intros Hb. apply String.eqb_eq in Hb. subst b. exists (String c a). split; [discriminate|]. now apply split_dot_sound in E.
  - intros (b & Hb & ->). rewrite split_dot_xml. destruct b; [congruence|reflexivity].
Qed.

Section Xml.
  Context {U : Type}.
  Variable id_of : U -> string.
  Variable xml : list Z -> option U.
  Definition xkeys (v : Z) (l : list (string * dnode)) : list ((Z * string) * list Z) :=
    flat_map (fun e => match snd e with DFile c => if is_xml (fst e) then match xml c with Some u => [((v, id_of u), c)] | None => [] end else [] | DDir => [] end) l.
  Definition xdirs (order : path -> list (string * dnode) -> list (string * dnode)) (d : disk) (l : list (string * dnode)) : list ((Z * string) * list Z) :=
    flat_map (fun e => match snd e with DDir => match dget [fst e; "BalanceData"] d with Some DDir => match parse_u32 (fst e) with Some v => xkeys v (order [fst e; "BalanceData"] (children [fst e; "BalanceData"] d)) | None => [] end | _ => [] end | DFile _ => [] end) l.
  Definition texts (l : list (string * dnode)) : Prop := forall f c, In (f, DFile c) l -> is_xml f = true -> utf8_ok c = true.
  Lemma xml_files_load : forall v l m, texts l -> xml_files id_of xml v l m = load xml (xkeys v l) m.
  Proof.
    intros v. induction l as [|[f [|c]] l IH]; intros m Ht; cbn [xml_files xkeys flat_map snd fst app load]; [reflexivity|apply IH; intros g e Hi; apply Ht; now right|].
    assert (Ht' : texts l) by (intros g e Hi; apply Ht; now right). unfold is_xml. specialize (Ht f c (or_introl eq_refl)). unfold is_xml in Ht.
    destruct (extension f) as [e|]; [|now apply IH]. destruct (String.eqb e "xml"); [|now apply IH]. rewrite (Ht eq_refl). destruct (xml c) as [u|] eqn:E; [|now apply IH].
    cbn [app load]. rewrite E. now apply IH.
  Qed.
  Lemma xml_files_err : forall v l m f c, In (f, DFile c) l -> is_xml f = true -> utf8_ok c = false -> xml_files id_of xml v l m = Err (EOther "io").
  Proof.
    intros v. induction l as [|[g [|c']] l IH]; intros m f c Hi Hx Hu; cbn [xml_files]; [destruct Hi|destruct Hi as [K|Hi]; [discriminate|eapply IH; eassumption]|].
    destruct Hi as [K|Hi].
    - injection K as -> ->. unfold is_xml in Hx. destruct (extension f) as [e|]; [|discriminate]. rewrite Hx, Hu. reflexivity.
    - destruct (extension g) as [e|]; [|eapply IH; eassumption]. destruct (String.eqb e "xml"); [|eapply IH; eassumption]. destruct (utf8_ok c'); [|reflexivity]. destruct (xml c'); eapply IH; eassumption.
  Qed.
  Lemma xml_files_total : forall v l m, (exists m', xml_files id_of xml v l m = Ok m') \/ xml_files id_of xml v l m = Err (EOther "io").
  Proof.
    intros v. induction l as [|[g [|c']] l IH]; intros m; cbn [xml_files]; [left; eauto|auto|].
    destruct (extension g) as [e|]; [|auto]. destruct (String.eqb e "xml"); [|auto]. destruct (utf8_ok c'); [|now right]. destruct (xml c'); auto.
  Qed.
  Lemma xml_dirs_load : forall order d l m, lists order -> (forall s v, In (s, DDir) l -> parse_u32 s = Some v -> dget [s; "BalanceData"] d = Some DDir -> texts (children [s; "BalanceData"] d)) ->
    xml_dirs id_of xml order d l m = load xml (xdirs order d l) m.
  Proof.
    intros order d. induction l as [|[s [|c]] l IH]; intros m Ho Ht; cbn [xml_dirs xdirs flat_map snd fst app load]; [reflexivity| |apply IH; [exact Ho|intros s' v Hi; apply Ht; now right]].
    assert (Ht' : forall s' v, In (s', DDir) l -> parse_u32 s' = Some v -> dget [s'; "BalanceData"] d = Some DDir -> texts (children [s'; "BalanceData"] d)) by (intros s' v Hi; apply (Ht s' v); now right).
    specialize (Ht s). destruct (dget [s; "BalanceData"] d) as [[|c]|]; try (apply IH; assumption). destruct (parse_u32 s) as [v|]; [|apply IH; assumption].
    rewrite load_app, xml_files_load.
    - destruct (load xml (xkeys v (order [s; "BalanceData"] (children [s; "BalanceData"] d))) m) as [m'| |]; cbn [obind]; [apply IH; assumption|reflexivity|reflexivity].
    - intros f c Hi. apply (Permutation_in _ (Permutation_sym (Ho _ _))) in Hi. revert Hi. apply (Ht v); [now left|reflexivity|reflexivity].
  Qed.
  Lemma xml_dirs_err : forall order d l m s v f c, lists order -> In (s, DDir) l -> parse_u32 s = Some v -> dget [s; "BalanceData"] d = Some DDir -> In (f, DFile c) (children [s; "BalanceData"] d) -> is_xml f = true -> utf8_ok c = false ->
    xml_dirs id_of xml order d l m = Err (EOther "io").
  Proof.
    intros order d l m s v f c Ho Hi Hs Hb Hf Hx Hu. revert m Hi. induction l as [|[s' [|c']] l IH]; intros m Hi; cbn [xml_dirs]; [destruct Hi| |destruct Hi as [K|Hi]; [discriminate|now apply IH]].
    destruct Hi as [K|Hi].
    - injection K as ->. rewrite Hb, Hs. rewrite (xml_files_err v _ m f c); [reflexivity| |exact Hx|exact Hu]. now apply (Permutation_in _ (Ho _ _)).
    - destruct (dget [s'; "BalanceData"] d) as [[|c']|]; try now apply IH. destruct (parse_u32 s') as [w|]; [|now apply IH].
      destruct (xml_files_total w (order [s'; "BalanceData"] (children [s'; "BalanceData"] d)) m) as [(m' & E)|E]; rewrite E; cbn [obind]; [now apply IH|reflexivity].
  Qed.
  Lemma xdirs_spec : forall order d k c, lists order -> good_disk d ->
    In (k, c) (xdirs order d (order [] (children [] d))) <-> exists s f u, xml_file d (fst k) s f c /\ xml c = Some u /\ id_of u = snd k.
  Proof.
    intros order d [v n] c Ho (Hd & _ & Hp). unfold xdirs. rewrite in_flat_map. split.
    - intros ([s x] & Hi & Hk). cbn [fst snd app] in *. destruct x; [|destruct Hk]. destruct (dget [s; "BalanceData"] d) as [[|c']|] eqn:Eb; try destruct Hk.
      destruct (parse_u32 s) as [w|] eqn:Es; [|destruct Hk]. unfold xkeys in Hk. apply in_flat_map in Hk as ([f y] & Hf & Hk). apply (Permutation_in _ (Permutation_sym (Ho _ _))) in Hf. apply children_in in Hf.
      cbn [fst snd app] in *. destruct y as [|c']; [destruct Hk|]. destruct (is_xml f) eqn:Ex; [|destruct Hk]. destruct (xml c') as [u|] eqn:Eu; [|destruct Hk]. destruct Hk as [Hk|[]]. injection Hk as -> <- ->.
      exists s, f, u. split; [|auto]. split; [now apply dget_in|]. split; [exact Hf|]. split; [now apply parse_u32_spec|now apply is_xml_spec].
    - intros (s & f & u & (Hb & Hi & Hs & Hf) & Hc & Hu). cbn [fst snd] in *. subst n. exists (s, DDir). split.
      + apply (Permutation_in _ (Ho _ _)). apply children_in. cbn [app]. destruct (Hp [s] "BalanceData" _ Hb) as [K|K]; [discriminate|exact K].
      + cbn [fst snd]. apply (in_dget _ _ _ Hd) in Hb. rewrite Hb. apply parse_u32_spec in Hs. rewrite Hs. unfold xkeys. apply in_flat_map. exists (f, DFile c). split; [apply (Permutation_in _ (Ho _ _)); now apply children_in|].
        cbn [fst snd]. apply is_xml_spec in Hf. rewrite Hf, Hc. now left.
  Qed.
  Lemma xml_reads : forall order d, lists order -> good_disk d -> (forall v s f c, xml_file d v s f c -> utf8_ok c = true) ->
    exists m, traverse_xml id_of xml order (Some d) = Ok m /\ NoDup (map fst m) /\
      (forall k u, uget k m = Some u -> snd k = id_of u /\ exists s f c, xml_file d (fst k) s f c /\ xml c = Some u) /\
      (forall v s f c u, xml_file d v s f c -> xml c = Some u -> uget (v, id_of u) m <> None).
  Proof.
    intros order d Ho Hg Ht. unfold traverse_xml. rewrite xml_dirs_load; [|exact Ho|].
    - destruct (load_ok xml (xdirs order d (order [] (children [] d))) []) as (m & E & Hn & H1 & H2 & _).
      + constructor.
      + apply Forall_forall. intros [k c] Hi. apply xdirs_spec in Hi as (s & f & u & _ & Hc & _); [|exact Ho|exact Hg]. cbn [snd]. rewrite Hc. discriminate.
      + exists m. split; [exact E|]. split; [exact Hn|]. split.
        * intros k u Hk. destruct (H1 _ _ Hk) as [K|(c & Hi & Hc)]; [discriminate|]. apply xdirs_spec in Hi as (s & f & u' & Hf & Hc' & Hu); [|exact Ho|exact Hg].
          assert (u' = u) as -> by congruence. split; [now symmetry|]. exists s, f, c. auto.
        * intros v s f c u Hf Hc. apply H2. left. apply in_map_iff. exists ((v, id_of u), c). split; [reflexivity|]. apply xdirs_spec; [exact Ho|exact Hg|]. exists s, f, u. auto.
    - intros s v Hi Hs Hb f c Hf Hx. apply (Ht v s f c). split; [now apply dget_in|]. split; [now apply children_in in Hf|]. split; [now apply parse_u32_spec|now apply is_xml_spec].
  Qed.
  Lemma xml_fails : forall order d v s f c, lists order -> good_disk d -> xml_file d v s f c -> utf8_ok c = false -> exists e, traverse_xml id_of xml order (Some d) = Err e.
  Proof.
    intros order d v s f c Ho (Hd & _ & Hp) (Hb & Hi & Hs & Hf) Hu. exists (EOther "io"). unfold traverse_xml. eapply (xml_dirs_err order d _ [] s v f c); [exact Ho| | | | |now apply is_xml_spec|exact Hu].
    - apply (Permutation_in _ (Ho _ _)). apply children_in. cbn [app]. destruct (Hp [s] "BalanceData" _ Hb) as [K|K]; [discriminate|exact K].
    - now apply parse_u32_spec.
    - now apply in_dget.
    - now apply children_in.
  Qed.
End Xml.

(** ** All together *)
Section All.
  Context {U : Type}.
  Variable enc : U -> list Z.
  Variable dec : list Z -> option U.
  Lemma runs_read : forall runs, (forall k u, last_written k runs = Some u -> dec (enc u) = Some u) -> Forall storable runs -> exists d, write_runs enc runs [] = (Ok tt, d) /\
    (forall order, lists order -> exists m, read_json_dir dec order d = Ok m /\ forall k, uget k m = last_written k runs) /\
    (forall l, Permutation (assets_of d) l -> exists m, read_assets dec l [] = Ok m /\ forall k, uget k m = last_written k runs).
  Proof.
    intros runs round_trip F. destruct (write_runs_holds enc runs [] [] (holds_empty enc) F) as (d & m0 & E & Hh & Hm). exists d. split; [exact E|].
    pose proof Hh as (Hg & _). pose proof (holds_clash enc d m0 Hh) as Hnc.
    assert (L : forall k, uget k m0 = last_written k runs) by (intros k; rewrite Hm; destruct (last_written k runs); reflexivity).
    assert (R : forall k u, uget k m0 = Some u -> dec (enc u) = Some u) by (intros k u Hk; rewrite L in Hk; eapply round_trip; exact Hk).
    assert (Hc : forall k s f c, unit_file d k s f c -> dec c <> None) by (intros; eapply (holds_decodes enc dec); eassumption).
    split.
    - intros order Ho. destruct (json_dir_reads dec order d Ho Hg Hc) as (m & Em & _ & _ & Hu). exists m. split; [exact Em|]. intros k. rewrite <- L. apply (holds_same enc dec d); auto.
    - intros l Hl. destruct (assets_read dec d l Hg Hl Hc) as (m & Em & _ & _ & Hu). exists m. split; [exact Em|]. intros k. rewrite <- L. apply (holds_same enc dec d); auto.
  Qed.
  Variable id_of : U -> string.
  Variable xml : list Z -> option U.
  Lemma xml_to_json : forall order d, lists order -> good_disk d -> (forall v s f c, xml_file d v s f c -> utf8_ok c = true) ->
    (forall v s f c u, xml_file d v s f c -> xml c = Some u -> plain (id_of u) /\ dec (enc u) = Some u) ->
    exists m d', traverse_xml id_of xml order (Some d) = Ok m /\ write_json enc m [] = (Ok tt, d') /\
      forall order', lists order' -> exists m', read_json_dir dec order' d' = Ok m' /\ forall k, uget k m' = uget k m.
  Proof.
    intros order d Ho Hg Ht Hp. destruct (xml_reads id_of xml order d Ho Hg Ht) as (m & Em & Hn & H1 & _).
    assert (S : storable m).
    { split; [exact Hn|]. apply Forall_forall. intros [k u] Hi. cbn [fst]. pose proof (in_uget m k u Hn Hi) as Hk. destruct (H1 _ _ Hk) as (Hid & s & f & c & Hf & Hc). split.
      - destruct Hf as (_ & _ & Hs & _). eapply numeral_range; exact Hs.
      - rewrite Hid. eapply Hp; eassumption. }
    assert (R : forall k u, last_written k [m] = Some u -> dec (enc u) = Some u).
    { intros k u Hk. cbn [last_written] in Hk. destruct (H1 _ _ Hk) as (_ & s & f & c & Hf & Hc). eapply Hp; eassumption. }
    destruct (runs_read [m] R (Forall_cons _ S (Forall_nil _))) as (d' & Ed & Hr & _). exists m, d'. split; [exact Em|]. split.
    - cbn [write_runs] in Ed. destruct (write_json enc m []) as [[[]| |] d2]; congruence.
    - intros order' Ho'. destruct (Hr order' Ho') as (m' & E' & Hk). exists m'. split; [exact E'|]. intros k. rewrite Hk. reflexivity.
  Qed.
End All.

(** ** The statements of the properties *)
Section Statements.
  Context {U : Type}.
  Variable dec : list Z -> option U.
  Lemma fail_together : forall d order l, good_disk d -> lists order -> Permutation (assets_of d) l ->
    ((exists m, read_json_dir dec order d = Ok m) <-> (forall k s f c, unit_file d k s f c -> dec c <> None)) /\
    ((exists m, read_assets dec l [] = Ok m) <-> (forall k s f c, unit_file d k s f c -> dec c <> None)) /\
    read_json_dir dec order d <> Panic /\ read_assets dec l [] <> Panic.
  Proof.
    intros d order l Hg Ho Hl.
    assert (N : forall a m, load dec a m <> Panic).
    { induction a as [|[k c] a IH]; intros m; cbn [load]; [discriminate|]. destruct (dec c); [apply IH|discriminate]. }
    split; [|split; [|split]].
    - split.
      + intros (m & E) k s f c Hf Hc. destruct (json_dir_fails dec order d k s f c Ho Hg Hf Hc) as (e & E'). congruence.
      + intros Hc. destruct (json_dir_reads dec order d Ho Hg Hc) as (m & E & _). eauto.
    - split.
      + intros (m & E) k s f c Hf Hc. destruct (assets_fail dec d l k s f c Hg Hl Hf Hc) as (e & E'). congruence.
      + intros Hc. destruct (assets_read dec d l Hg Hl Hc) as (m & E & _). eauto.
    - unfold read_json_dir. rewrite read_dirs_load. apply N.
    - rewrite read_assets_load. apply N.
  Qed.
  Lemma readers_agree : forall d order order' l, good_disk d -> lists order -> lists order' -> Permutation (assets_of d) l -> no_clash d -> (forall k s f c, unit_file d k s f c -> dec c <> None) ->
    exists m m' m'', read_json_dir dec order d = Ok m /\ read_json_dir dec order' d = Ok m' /\ read_assets dec l [] = Ok m'' /\
      (forall k, uget k m = uget k m' /\ uget k m = uget k m'') /\
      forall k u, uget k m = Some u <-> exists s f c, unit_file d k s f c /\ dec c = Some u.
  Proof.
    intros d order order' l Hg Ho Ho' Hl Hn Hc. destruct (json_dir_reads dec order d Ho Hg Hc) as (m & E & _ & _ & H1). destruct (json_dir_reads dec order' d Ho' Hg Hc) as (m' & E' & _ & _ & H2).
    destruct (assets_read dec d l Hg Hl Hc) as (m'' & E'' & _ & _ & H3). exists m, m', m''. split; [exact E|]. split; [exact E'|]. split; [exact E''|]. split; [|now apply H1].
    assert (G : forall a b : units U, (forall k u, uget k a = Some u <-> uget k b = Some u) -> forall k, uget k a = uget k b).
    { intros a b K k. destruct (uget k a) as [u|] eqn:Ea; [symmetry; now apply K|]. destruct (uget k b) as [u|] eqn:Eb; [|reflexivity]. apply K in Eb. congruence. }
    intros k. split; apply G; intros k' u; rewrite (H1 Hn); [now rewrite (H2 Hn)|now rewrite (H3 Hn)].
  Qed.
  Lemma from_files : forall d order m, good_disk d -> lists order -> read_json_dir dec order d = Ok m ->
    (forall k u, uget k m = Some u -> exists s f c, unit_file d k s f c /\ dec c = Some u) /\ (forall k s f c, unit_file d k s f c -> uget k m <> None).
  Proof.
    intros d order m Hg Ho E. assert (Hc : forall k s f c, unit_file d k s f c -> dec c <> None).
    { intros k s f c Hf Hc. destruct (json_dir_fails dec order d k s f c Ho Hg Hf Hc) as (e & E'). congruence. }
    destruct (json_dir_reads dec order d Ho Hg Hc) as (m' & E' & H1 & H2 & _). assert (m' = m) as -> by congruence. auto.
  Qed.
  Variable enc : U -> list Z.
  Variable id_of : U -> string.
  Variable xml : list Z -> option U.
  Lemma xml_units : forall d order, good_disk d -> lists order -> (forall v s f c, xml_file d v s f c -> utf8_ok c = true) ->
    (forall k u s f u' s' f', xml_unit id_of xml d k u s f -> xml_unit id_of xml d k u' s' f' -> u = u') ->
    exists m, traverse_xml id_of xml order (Some d) = Ok m /\ forall k u, uget k m = Some u <-> exists s f, xml_unit id_of xml d k u s f.
  Proof.
    intros d order Hg Ho Ht Hu. destruct (xml_reads id_of xml order d Ho Hg Ht) as (m & E & _ & H1 & H2). exists m. split; [exact E|].
    assert (G : forall k u, uget k m = Some u -> exists s f, xml_unit id_of xml d k u s f).
    { intros k u K. destruct (H1 _ _ K) as (Hi & s & f & c & Hf & Hc). exists s, f, c. auto. }
    intros k u. split; [apply G|]. intros (s & f & K). pose proof K as (c & Hf & Hc & Hi). specialize (H2 _ _ _ _ _ Hf Hc). rewrite Hi in H2. destruct k as [v n]. cbn [fst snd] in *.
    destruct (uget (v, n) m) as [u'|] eqn:Ek; [|congruence]. f_equal. destruct (G _ _ Ek) as (s' & f' & K'). eapply Hu; eassumption.
  Qed.
  Lemma through_json : forall d order order', (forall k u s f, xml_unit id_of xml d k u s f -> dec (enc u) = Some u) -> good_disk d -> lists order -> lists order' -> (forall v s f c, xml_file d v s f c -> utf8_ok c = true) ->
    (forall k u s f, xml_unit id_of xml d k u s f -> plain (snd k)) ->
    exists m d' m', traverse_xml id_of xml order (Some d) = Ok m /\ write_json enc m [] = (Ok tt, d') /\ read_json_dir dec order' d' = Ok m' /\ forall k, uget k m' = uget k m.
  Proof.
    intros d order order' Hr Hg Ho Ho' Ht Hp. destruct (xml_to_json enc dec id_of xml order d Ho Hg Ht) as (m & d' & E & E' & H).
    - intros v s f c u Hf Hc. assert (X : xml_unit id_of xml d (v, id_of u) u s f) by (exists c; auto). split; [exact (Hp _ _ _ _ X)|exact (Hr _ _ _ _ X)].
    - destruct (H order' Ho') as (m' & Em & K). exists m, d', m'. auto.
  Qed.
End Statements.
