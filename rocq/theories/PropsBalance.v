(** * Balance data on disk (C94-C96)

    [U] is a unit of balance data, [enc] its JSON text, [dec] and [xml] the units
    that a JSON and an XML text give, if any. *)
From Coq Require Import Ascii Permutation.
From Verif Require Import Base Utf8 Convert ConvertSpec Files BalanceFiles BalanceSpec BalanceText BalanceFacts BalanceWrite BalanceNames BalanceXml.
#[local] Open Scope string_scope.
#[local] Open Scope Z_scope.
#[local] Open Scope list_scope.

Definition listing : Type := path -> list (string * dnode) -> list (string * dnode).
Definition as_is : listing := fun _ l => l.
Definition backwards : listing := fun _ l => rev l.
Lemma as_is_lists : lists as_is. Proof. intros p l. apply Permutation_refl. Qed.
Lemma backwards_lists : lists backwards. Proof. intros p l. apply Permutation_rev. Qed.
(** Units that are texts, for the examples: an empty file is no unit. *)
Definition ex_enc (u : list Z) : list Z := 1 :: u.
Definition ex_dec (c : list Z) : option (list Z) := match c with [] => None | _ :: u => Some u end.

Ltac no_char := vm_compute; let K := fresh in intros K; repeat (destruct K as [K|K]; [discriminate|]); destruct K.
Ltac plain_name := split; [no_char|split; [no_char|intros (p & E); apply (f_equal (strip_suffix ".json")) in E; rewrite strip_app in E; vm_compute in E; discriminate]].

(** C94. *)
Theorem C94_units_read_back_partial : forall {U} (enc : U -> list Z) (dec : list Z -> option U) (runs : list (units U)),
  (forall k u, last_written k runs = Some u -> dec (enc u) = Some u) -> Forall storable runs ->
  exists d, write_runs enc runs [] = (Ok tt, d) /\
    (forall order : listing, lists order -> exists m, read_json_dir dec order d = Ok m /\ forall k, uget k m = last_written k runs) /\
    (forall l, Permutation (assets_of d) l -> exists m, read_assets dec l [] = Ok m /\ forall k, uget k m = last_written k runs).
Proof. intros U enc dec. exact (runs_read enc dec). Qed.
Print Assumptions C94_units_read_back_partial.
Example C94_ex : Forall storable [[((80949, "Marine"), [7]); ((92440, "Marine"), [8])]; [((80949, "Zergling"), [5]); ((80949, "Marine"), [9])]] /\
  (forall u, ex_dec (ex_enc u) = Some u) /\
  last_written (80949, "Marine") [[((80949, "Marine"), [7]); ((92440, "Marine"), [8])]; [((80949, "Zergling"), [5]); ((80949, "Marine"), [9])]] = Some [9].
Proof.
  split; [|split; [reflexivity|reflexivity]].
  repeat (constructor; [split; [cbn [map fst]; repeat (constructor; [intros K; cbn in K; repeat (destruct K as [K|K]; [discriminate|]); destruct K|]); constructor|repeat (constructor; [cbn [fst snd]; split; [unfold two32; lia|plain_name]|]); constructor]|]).
  constructor.
Qed.
(** A map is written over a larger one: the other units stay. *)
Theorem C94_exact_map_refuted : ~ (forall {U} (enc : U -> list Z) (dec : list Z -> option U) (before m : units U) d d' (order : listing),
  (forall u, dec (enc u) = Some u) -> storable before -> storable m -> lists order -> write_json enc before [] = (Ok tt, d) -> write_json enc m d = (Ok tt, d') ->
  exists m', read_json_dir dec order d' = Ok m' /\ forall k, uget k m' = uget k m).
Proof.
  intros H. assert (S1 : storable ([((1, "A"), [7])] : units (list Z))) by (split; [repeat constructor; intros []|constructor; [cbn [fst snd]; split; [unfold two32; lia|plain_name]|constructor]]).
  assert (S2 : storable ([] : units (list Z))) by (split; constructor).
  destruct (H (list Z) ex_enc ex_dec [((1, "A"), [7])] [] _ _ as_is (fun u => eq_refl) S1 S2 as_is_lists eq_refl eq_refl) as (m' & E & K).
  vm_compute in E. injection E as <-. specialize (K (1, "A")). vm_compute in K. discriminate.
Qed.
Print Assumptions C94_exact_map_refuted.
(** Names that end in [.json] or have a slash do not come back, even in a new
    directory. *)
Theorem C94_every_name_refuted : ~ (forall {U} (enc : U -> list Z) (dec : list Z -> option U) k u (order : listing), (forall u, dec (enc u) = Some u) -> 0 <= fst k < two32 -> lists order ->
  exists d m, write_json enc [(k, u)] [] = (Ok tt, d) /\ read_json_dir dec order d = Ok m /\ uget k m = Some u) /\
  (forall k, k = (1, "A.json") \/ k = (1, "A/B") \/ k = (1, "/") -> exists d m, write_json ex_enc [(k, [7])] [] = (Ok tt, d) /\ read_json_dir ex_dec as_is d = Ok m /\ uget k m = None).
Proof.
  split.
  - intros H. destruct (H (list Z) ex_enc ex_dec (1, "A.json") [7] as_is (fun u => eq_refl)) as (d & m & E & Em & K); [cbn [fst]; unfold two32; lia|exact as_is_lists|].
    vm_compute in E. injection E as <-. vm_compute in Em. injection Em as <-. vm_compute in K. discriminate.
  - intros k [->|[->| ->]]; do 2 eexists; (split; [vm_compute; reflexivity|]); (split; [vm_compute; reflexivity|]); vm_compute; reflexivity.
Qed.
Print Assumptions C94_every_name_refuted.
(** One unit with any name, in a new directory; [parts] are the parts of its file
    name between slashes.  There is one file then: in the directory of the version,
    below the parts that name something.  If that is one part, it is read as the
    unit of that version that has the part for a file name, and nothing else is
    read; if there are more, nothing is. *)
Theorem C94_any_name : forall {U} (enc : U -> list Z) (dec : list Z -> option U) k u parts, dec (enc u) = Some u -> 0 <= fst k < two32 ->
  String.concat "/" parts = (snd k ++ ".json")%string -> Forall (fun n => ~ contains "/" n) parts -> ~ contains "000" (snd k) -> ~ In ".." parts ->
  let named := filter (fun c => negb (existsb (String.eqb c) [""; "."])) parts in
  exists d s, write_json enc [(k, u)] [] = (Ok tt, d) /\ numeral s (fst k) /\ (forall p c, In (p, DFile c) d <-> p = s :: named /\ c = enc u) /\
    forall order : listing, lists order -> exists m, read_json_dir dec order d = Ok m /\
      forall k' u', uget k' m = Some u' <-> u' = u /\ fst k' = fst k /\ exists f, named = [f] /\ bare_name f (snd k').
Proof. intros U enc dec. exact (any_name enc dec). Qed.
Print Assumptions C94_any_name.
(** So the names that come back are exactly the plain ones. *)
Theorem C94_which_names_partial : forall {U} (enc : U -> list Z) (dec : list Z -> option U) k u parts (order : listing), dec (enc u) = Some u -> 0 <= fst k < two32 ->
  String.concat "/" parts = (snd k ++ ".json")%string -> Forall (fun n => ~ contains "/" n) parts -> ~ In ".." parts -> lists order ->
  ((exists d m, write_json enc [(k, u)] [] = (Ok tt, d) /\ read_json_dir dec order d = Ok m /\ uget k m = Some u) <-> plain (snd k)).
Proof. intros U enc dec. exact (which_names enc dec). Qed.
Print Assumptions C94_which_names_partial.
(** The unit [./A//B] is in the file [A/B.json] and lost; [/A] comes back as [A]. *)
Example C94_any_name_ex : String.concat "/" ["."; "A"; ""; "B.json"] = ("./A//B" ++ ".json")%string /\ String.concat "/" [""; "A.json"] = ("/A" ++ ".json")%string /\
  Forall (fun n => ~ contains "/" n) ["."; "A"; ""; "B.json"] /\ ~ contains "000" "./A//B" /\ ~ In ".." ["."; "A"; ""; "B.json"] /\
  (exists d, write_json ex_enc [((1, "./A//B"), [7])] [] = (Ok tt, d) /\ In (["1"; "A"; "B.json"], DFile [1; 7]) d /\ read_json_dir ex_dec as_is d = Ok []) /\
  (exists d, write_json ex_enc [((1, "/A"), [7])] [] = (Ok tt, d) /\ read_json_dir ex_dec as_is d = Ok [((1, "A"), [7])]).
Proof.
  split; [reflexivity|]. split; [reflexivity|]. split; [repeat (constructor; [no_char|]); constructor|]. split; [no_char|]. split; [intros K; cbn in K; repeat (destruct K as [K|K]; [discriminate|]); destruct K|].
  split; eexists; (split; [vm_compute; reflexivity|]).
  - split; [|vm_compute; reflexivity]. do 2 right; left; reflexivity.
  - vm_compute; reflexivity.
Qed.

(** C95. *)
Theorem C95_readers_agree_partial : forall {U} (dec : list Z -> option U) d (order order' : listing) l,
  good_disk d -> lists order -> lists order' -> Permutation (assets_of d) l -> no_clash d -> (forall k s f c, unit_file d k s f c -> dec c <> None) ->
  exists m m' m'', read_json_dir dec order d = Ok m /\ read_json_dir dec order' d = Ok m' /\ read_assets dec l [] = Ok m'' /\
    (forall k, uget k m = uget k m' /\ uget k m = uget k m'') /\
    forall k u, uget k m = Some u <-> exists s f c, unit_file d k s f c /\ dec c = Some u.
Proof. intros U dec. exact (readers_agree dec). Qed.
Print Assumptions C95_readers_agree_partial.
Theorem C95_fail_together : forall {U} (dec : list Z -> option U) d (order : listing) l,
  good_disk d -> lists order -> Permutation (assets_of d) l ->
  ((exists m, read_json_dir dec order d = Ok m) <-> (forall k s f c, unit_file d k s f c -> dec c <> None)) /\
  ((exists m, read_assets dec l [] = Ok m) <-> (forall k s f c, unit_file d k s f c -> dec c <> None)) /\
  read_json_dir dec order d <> Panic /\ read_assets dec l [] <> Panic.
Proof. intros U dec. exact (fail_together dec). Qed.
Print Assumptions C95_fail_together.
(** What is read is always what some file holds, and every file counts. *)
Theorem C95_from_the_files : forall {U} (dec : list Z -> option U) d (order : listing) m,
  good_disk d -> lists order -> read_json_dir dec order d = Ok m ->
  (forall k u, uget k m = Some u -> exists s f c, unit_file d k s f c /\ dec c = Some u) /\ (forall k s f c, unit_file d k s f c -> uget k m <> None).
Proof. intros U dec. exact (from_files dec). Qed.
Print Assumptions C95_from_the_files.
Definition ex_disk : disk := [(["80949"], DDir); (["80949"; "Marine.json"], DFile [1; 7]); (["readme"], DFile []); (["80949"; "sub"], DDir); (["80949"; "sub"; "x.json"], DFile []); (["old"], DDir); (["old"; "y.json"], DFile [])].
Lemma ex_disk_good : good_disk ex_disk /\ no_clash ex_disk /\ (forall k s f c, unit_file ex_disk k s f c -> c = [1; 7] /\ s = "80949" /\ f = "Marine.json").
Proof.
  assert (G : forall k s f c, unit_file ex_disk k s f c -> c = [1; 7] /\ s = "80949" /\ f = "Marine.json").
  { intros k s f c (Hi & Hs & _). repeat (destruct Hi as [Hi|Hi]; [injection Hi; intros; subst; auto; try (exfalso; apply parse_u32_spec in Hs; vm_compute in Hs; discriminate)|]); try discriminate. destruct Hi. }
  split; [|split; [|exact G]].
  - split; [cbn [map fst ex_disk]; repeat (constructor; [intros K; cbn in K; repeat (destruct K as [K|K]; [discriminate|]); destruct K|]); constructor|]. split.
    + repeat constructor; try discriminate; cbn [fst]; vm_compute; intros K; repeat (destruct K as [K|K]; [discriminate|]); destruct K.
    + intros p n x Hi. repeat (destruct Hi as [Hi|Hi]; [injection Hi as E _; destruct p as [|a [|b [|c [|]]]]; cbn in E; injection E; intros; subst; try discriminate; cbn; intuition|]). destruct Hi.
  - intros k s f c s' f' c' H1 H2. apply G in H1 as (_ & -> & ->). apply G in H2 as (_ & -> & ->). auto.
Qed.
Example C95_ex : good_disk ex_disk /\ no_clash ex_disk /\ (forall k s f c, unit_file ex_disk k s f c -> ex_dec c <> None) /\ unit_file ex_disk (80949, "Marine") "80949" "Marine.json" [1; 7] /\ lists as_is /\ lists backwards.
Proof.
  destruct ex_disk_good as (H1 & H2 & H3). split; [exact H1|]. split; [exact H2|]. split; [intros k s f c Hf; apply H3 in Hf as (-> & _); discriminate|]. split; [|split; [apply as_is_lists|apply backwards_lists]].
  split; [right; left; reflexivity|]. split; [apply parse_u32_spec; reflexivity|apply trim_spec; reflexivity].
Qed.
(** [5/Marine.json] and [05/Marine.json] are the same unit: which one is read
    depends on the order of the listing. *)
Theorem C95_order_refuted : ~ (forall {U} (dec : list Z -> option U) d (order order' : listing) m m',
  good_disk d -> lists order -> lists order' -> read_json_dir dec order d = Ok m -> read_json_dir dec order' d = Ok m' -> forall k, uget k m = uget k m').
Proof.
  intros H. pose (d := [(["5"], DDir); (["5"; "Marine.json"], DFile [1; 7]); (["05"], DDir); (["05"; "Marine.json"], DFile [1; 8])] : disk).
  assert (G : good_disk d).
  { unfold d. split; [cbn [map fst]; repeat (constructor; [intros K; cbn in K; repeat (destruct K as [K|K]; [discriminate|]); destruct K|]); constructor|]. split.
    - repeat constructor; try discriminate; cbn [fst]; vm_compute; intros K; repeat (destruct K as [K|K]; [discriminate|]); destruct K.
    - intros p n x Hi. repeat (destruct Hi as [Hi|Hi]; [injection Hi as E _; destruct p as [|a [|b [|c [|]]]]; cbn in E; injection E; intros; subst; try discriminate; cbn; intuition|]). destruct Hi. }
  assert (K := H (list Z) ex_dec d as_is backwards [((5, "Marine"), [8])] [((5, "Marine"), [7])] G as_is_lists backwards_lists eq_refl eq_refl (5, "Marine")). vm_compute in K. discriminate.
Qed.
Print Assumptions C95_order_refuted.

(** C96. *)
Theorem C96_xml_units_partial : forall {U} (id_of : U -> string) (xml : list Z -> option U) d (order : listing),
  good_disk d -> lists order -> (forall v s f c, xml_file d v s f c -> utf8_ok c = true) ->
  (forall k u s f u' s' f', xml_unit id_of xml d k u s f -> xml_unit id_of xml d k u' s' f' -> u = u') ->
  exists m, traverse_xml id_of xml order (Some d) = Ok m /\ forall k u, uget k m = Some u <-> exists s f, xml_unit id_of xml d k u s f.
Proof. intros U id_of xml. exact (xml_units id_of xml). Qed.
Print Assumptions C96_xml_units_partial.
Theorem C96_not_text_fails : forall {U} (id_of : U -> string) (xml : list Z -> option U) d (order : listing) v s f c,
  good_disk d -> lists order -> xml_file d v s f c -> utf8_ok c = false -> exists e, traverse_xml id_of xml order (Some d) = Err e.
Proof. intros U id_of xml d order v s f c Hg Ho. exact (xml_fails id_of xml order d v s f c Ho Hg). Qed.
Print Assumptions C96_not_text_fails.
(** From XML to JSON and back. *)
Theorem C96_through_json : forall {U} (enc : U -> list Z) (dec : list Z -> option U) (id_of : U -> string) (xml : list Z -> option U) d (order order' : listing),
  (forall k u s f, xml_unit id_of xml d k u s f -> dec (enc u) = Some u) -> good_disk d -> lists order -> lists order' -> (forall v s f c, xml_file d v s f c -> utf8_ok c = true) ->
  (forall k u s f, xml_unit id_of xml d k u s f -> plain (snd k)) ->
  exists m d' m', traverse_xml id_of xml order (Some d) = Ok m /\ write_json enc m [] = (Ok tt, d') /\ read_json_dir dec order' d' = Ok m' /\ forall k, uget k m' = uget k m.
Proof. intros U enc dec id_of xml. exact (through_json dec enc id_of xml). Qed.
Print Assumptions C96_through_json.
Definition ex_id (u : list Z) : string := match u with 7 :: _ => "Marine" | _ => "Zergling" end.
Definition ex_xml_disk : disk := [(["80949"], DDir); (["80949"; "BalanceData"], DDir); (["80949"; "BalanceData"; "a.xml"], DFile [65; 7]); (["80949"; "BalanceData"; "b.xml"], DFile [65; 8]); (["80949"; "BalanceData"; "c.xml"], DFile []); (["80949"; "BalanceData"; "notes.txt"], DFile [255])].
Lemma ex_xml_good : good_disk ex_xml_disk.
Proof.
  split; [cbn [map fst ex_xml_disk]; repeat (constructor; [intros K; cbn in K; repeat (destruct K as [K|K]; [discriminate|]); destruct K|]); constructor|]. split.
  - unfold ex_xml_disk. repeat (constructor; [cbn [fst]; split; [discriminate|repeat (constructor; [split; [discriminate|no_char]|]); constructor]|]). constructor.
  - intros p n x Hi. repeat (destruct Hi as [Hi|Hi]; [injection Hi as E _; destruct p as [|a [|b [|c [|]]]]; cbn in E; injection E; intros; subst; try discriminate; cbn; intuition|]). destruct Hi.
Qed.
Lemma ex_xml_files : forall v s f c, xml_file ex_xml_disk v s f c -> v = 80949 /\ (c = [65; 7] \/ c = [65; 8] \/ c = []).
Proof.
  intros v s f c (_ & Hi & Hs & b & Hb & Hf).
  repeat (destruct Hi as [Hi|Hi]; [try discriminate; injection Hi as <- <- <-; apply parse_u32_spec in Hs; vm_compute in Hs; injection Hs as <-; split; auto|]); [|destruct Hi].
  exfalso. apply (f_equal split_dot) in Hf. rewrite split_dot_xml in Hf. vm_compute in Hf. congruence.
Qed.
(** Two units, a file that is no unit and a file that is not XML. *)
Example C96_ex : good_disk ex_xml_disk /\ (forall v s f c, xml_file ex_xml_disk v s f c -> utf8_ok c = true) /\
  (forall k u s f u' s' f', xml_unit ex_id ex_dec ex_xml_disk k u s f -> xml_unit ex_id ex_dec ex_xml_disk k u' s' f' -> u = u') /\
  (forall k u s f, xml_unit ex_id ex_dec ex_xml_disk k u s f -> plain (snd k)) /\
  xml_unit ex_id ex_dec ex_xml_disk (80949, "Marine") [7] "80949" "a.xml" /\
  traverse_xml ex_id ex_dec backwards (Some ex_xml_disk) = Ok [((80949, "Zergling"), [8]); ((80949, "Marine"), [7])].
Proof.
  split; [exact ex_xml_good|]. split.
  { intros v s f c Hf. apply ex_xml_files in Hf as (_ & [->|[->| ->]]); reflexivity. }
  assert (K : forall k u s f, xml_unit ex_id ex_dec ex_xml_disk k u s f -> (u = [7] /\ snd k = "Marine") \/ (u = [8] /\ snd k = "Zergling")).
  { intros k u s f (c & Hf & Hc & Hi). apply ex_xml_files in Hf as (_ & [->|[->| ->]]); cbn in Hc; [injection Hc as <-; now left|injection Hc as <-; now right|discriminate]. }
  split; [intros k u s f u' s' f' H1 H2; apply K in H1 as [[-> H1]|[-> H1]]; apply K in H2 as [[-> H2]|[-> H2]]; congruence|].
  split; [intros k u s f H1; apply K in H1 as [[_ ->]|[_ ->]]; plain_name|]. split; [|reflexivity].
  exists [65; 7]. split; [|split; reflexivity]. split; [right; left; reflexivity|]. split; [do 2 right; left; reflexivity|]. split; [apply parse_u32_spec; reflexivity|]. exists "a". split; [discriminate|reflexivity].
Qed.
(** Two XML files with the same identifier: which one counts depends on the order
    of the listing. *)
Theorem C96_order_refuted : ~ (forall {U} (id_of : U -> string) (xml : list Z -> option U) d (order order' : listing) m m',
  good_disk d -> lists order -> lists order' -> traverse_xml id_of xml order (Some d) = Ok m -> traverse_xml id_of xml order' (Some d) = Ok m' -> forall k, uget k m = uget k m').
Proof.
  intros H. assert (K := H (list Z) (fun _ => "Marine") ex_dec ex_xml_disk as_is backwards [((80949, "Marine"), [8])] [((80949, "Marine"), [7])] ex_xml_good as_is_lists backwards_lists eq_refl eq_refl (80949, "Marine")). vm_compute in K. discriminate.
Qed.
Print Assumptions C96_order_refuted.
