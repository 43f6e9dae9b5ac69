(** * C116: the command line program *)
From Coq Require Import Ascii Permutation.
From Verif Require Import Base Utf8 Convert ConvertSpec Tags Balance State StateExample Files Archive PropsArchive Cli PropsCli BalanceFiles BalanceSpec BalanceText BalanceWrite PropsBalance Program ProgramSpec ProgramFacts.
#[local] Open Scope string_scope.
#[local] Open Scope Z_scope.
#[local] Open Scope list_scope.

(** C116.  Runs of [balance-data-to-json] into a directory that is there and was
    empty succeed, and later commands with [--json-balance-data-dir] work with, for
    every unit, what the last run that had it in its XML files gave it. *)
Theorem C116_history_partial : forall {U} (os : outside U) json l, json <> "" -> Forall (fine_conversion os json) l ->
  exists d', converts os json [] l d' /\ forall (order order' : listing) ds a, lists order -> lists order' -> ag_json a = json -> ds json = Some d' ->
    exists m m', (forall k u, uget k m = Some u <-> latest os k u (map cv_xml l)) /\ (forall k u, uget k m' = Some u <-> latest os k u (map cv_xml l)) /\
      (forall c out, ag_command a = CmdExport c -> ag_output a = Some out -> process os order order' ds a =
         let (o, f) := export_replays (os_machine os) (os_tree os) (os_world os) (viewed os m) (os_is_dir os out) (os_creates os out) (os_arrival os) (os_path os (ag_source a)) c in (o, [FArrow f], ds)) /\
      (forall r, ag_command a = CmdGet r -> process os order order' ds a =
         let (o, p) := handle_get_cmd (os_machine os) (os_tree os) (os_world os) (viewed os m') (ag_options a) r (os_path os (ag_source a)) in (o, [FPrinted p], ds)).
Proof.
  intros U os json l Hj F. destruct (history os json l Hj F) as (d' & Ec & H). exists d'. split; [exact Ec|]. intros order order' ds a Ho Ho' J Hd.
  destruct (H order ds a Ho J Hd) as (m & E & K). destruct (H order' ds a Ho' J Hd) as (m' & E' & K'). exists m, m'. split; [exact K|]. split; [exact K'|]. split.
  - intros c out. exact (export_uses os order order' ds a m c out E).
  - intros r. exact (get_uses os order order' ds a m m' r E E').
Qed.
Print Assumptions C116_history_partial.
(** Without the option the commands work with the units of the files built into
    the program, and the directories do not matter. *)
Theorem C116_built_in : forall {U} (os : outside U) d, good_disk d -> no_clash d -> Permutation (assets_of d) (os_assets os) ->
  (forall k s f c, unit_file d k s f c -> os_dec os c <> None) ->
  exists m, (forall k u, uget k m = Some u <-> exists s f c, unit_file d k s f c /\ os_dec os c = Some u) /\
    forall (order order' : listing) ds a, ag_json a = "" ->
      (forall c out, ag_command a = CmdExport c -> ag_output a = Some out -> process os order order' ds a =
         let (o, f) := export_replays (os_machine os) (os_tree os) (os_world os) (viewed os m) (os_is_dir os out) (os_creates os out) (os_arrival os) (os_path os (ag_source a)) c in (o, [FArrow f], ds)) /\
      (forall r, ag_command a = CmdGet r -> process os order order' ds a =
         let (o, p) := handle_get_cmd (os_machine os) (os_tree os) (os_world os) (viewed os m) (ag_options a) r (os_path os (ag_source a)) in (o, [FPrinted p], ds)).
Proof.
  intros U os d Hg Hn Hp Hc. destruct (assets_read (os_dec os) d (os_assets os) Hg Hp Hc) as (m & E & _ & _ & H). exists m. split; [exact (H Hn)|].
  intros order order' ds a Ha. assert (B : forall o : listing, balance_data os o ds a = Ok m) by (intros o; unfold balance_data; rewrite Ha; exact E). split.
  - intros c out. exact (export_uses os order order' ds a m c out (B order)).
  - intros r. exact (get_uses os order order' ds a m m r (B order) (B order')).
Qed.
Print Assumptions C116_built_in.
(** A JSON directory that cannot be read stops every command before it does
    anything, and the program ends in a panic. *)
Theorem C116_balance_first : forall {U} (os : outside U) (order order' : listing) ds a, lists order -> bad_json os ds (ag_json a) ->
  (exists e, process os order order' ds a = (Err e, [], ds)) /\ main_run os order order' ds a = (Panic, [], ds).
Proof. intros U os. exact (bad_stops os). Qed.
Print Assumptions C116_balance_first.
(** [--xml-balance-data-dir] does nothing; only [balance-data-to-json] writes, and
    only to the JSON directory. *)
Theorem C116_options : forall {U} (os : outside U) (order order' : listing) ds a,
  (forall x, process os order order' ds (mk_args (ag_source a) x (ag_json a) (ag_output a) (ag_command a) (ag_options a)) = process os order order' ds a) /\
  (ag_command a <> CmdToJson -> snd (process os order order' ds a) = ds) /\
  (forall s, s <> ag_json a -> snd (process os order order' ds a) s = ds s).
Proof. intros U os order order' ds a. split; [apply xml_unused|]. split; [apply others_keep|apply to_json_keeps_others]. Qed.
Print Assumptions C116_options.
(** Missing arguments. *)
Theorem C116_missing : forall {U} (os : outside U) (order order' : listing) ds a m, balance_data os order ds a = Ok m ->
  (ag_output a = None -> ag_command a = CmdGenerate \/ (exists c, ag_command a = CmdExport c) -> process os order order' ds a = (Panic, [], ds)) /\
  (ag_command a = CmdToJson -> ag_source a = "" \/ ag_json a = "" -> exists e, process os order order' ds a = (Err e, [], ds)) /\
  (forall d, ag_command a = CmdToJson -> ag_source a <> "" -> ag_json a <> "" -> ds (ag_source a) = None -> ds (ag_json a) = Some d ->
     exists ds', process os order order' ds a = (Ok tt, [], ds') /\ forall s, ds' s = ds s).
Proof.
  intros U os order order' ds a m E. split; [exact (no_output os order order' ds a m E)|]. split; [exact (missing_arguments os order order' ds a m E)|]. intros d. exact (no_source os order order' ds a m d E).
Qed.
Print Assumptions C116_missing.
(** [util xlate-tag-to-index-recycle] prints the parts of any number. *)
Theorem C116_tag : forall {U} (os : outside U) (order order' : listing) ds a m tag, balance_data os order ds a = Ok m -> ag_command a = CmdTag tag ->
  process os order order' ds a = (Ok tt, [FTag ((tag / 2 ^ 18) mod 2 ^ 14) (tag mod 2 ^ 18)], ds).
Proof. intros U os. exact (tag_run os). Qed.
Print Assumptions C116_tag.

(** Units that are texts, the replays of PropsArchive.v; "x" is a directory of XML
    files, "j" the JSON directory. *)
Definition ex_outside : outside (list Z) :=
  mk_outside (list Z) ex_enc ex_dec ex_id ex_dec (fun _ => match a_balance with e :: _ => snd e | [] => mk_bunit None [] [] [] None end) (assets_of ex_disk) (fun _ _ => Ok tt)
    ex_mc three_files (a_world all_good) (fun s => [s]) (fun _ => true) (fun _ _ => true) (fun _ l => l) (fun l => l).
(** The only unit built into [ex_outside] is the Marine of 80949. *)
Example C116_built_in_ex : good_disk ex_disk /\ no_clash ex_disk /\ Permutation (assets_of ex_disk) (os_assets ex_outside) /\
  (forall k s f c, unit_file ex_disk k s f c -> os_dec ex_outside c <> None) /\ unit_file ex_disk (80949, "Marine") "80949" "Marine.json" [1; 7].
Proof.
  destruct C95_ex as (G & N & H & F & _). split; [exact G|]. split; [exact N|]. split; [vm_compute; apply Permutation_refl|]. split; [exact H|exact F].
Qed.
Definition only_x : dirs := fun s => if String.eqb s "x" then Some ex_xml_disk else None.
Definition to_json_args : program_args := mk_args "x" "" "j" None CmdToJson no_options.
Definition ex_conversion : conversion := mk_conversion to_json_args only_x as_is backwards.
Example C116_ex : Forall (fine_conversion ex_outside "j") [ex_conversion; ex_conversion] /\
  latest ex_outside (80949, "Marine") [7] (map cv_xml [ex_conversion; ex_conversion]) /\
  bad_json ex_outside only_x "j" /\
  process ex_outside as_is backwards only_x (mk_args "x" "" "" None (CmdTag 73662467) no_options) = (Ok tt, [FTag 281 3], only_x).
Proof.
  destruct C96_ex as (H1 & H2 & H3 & H4 & H5 & _). split; [|split; [|split]].
  - assert (F : fine_conversion ex_outside "j" ex_conversion).
    { split; [exact as_is_lists|]. split; [exact backwards_lists|]. split; [reflexivity|]. split; [reflexivity|]. split; [discriminate|]. split; [discriminate|]. intros d [= <-].
      split; [exact H1|]. split; [exact H2|]. split; [|exact H3]. intros k u s f Hu. split; [eapply H4; exact Hu|]. reflexivity. }
    auto.
  - cbn [map latest]. left. right. split; [intros (u & [])|]. exists ex_xml_disk, "80949", "a.xml". split; [reflexivity|exact H5].
  - split; [discriminate|]. left. reflexivity.
  - reflexivity.
Qed.
(** A directory that is not there yet is not created: the balance data are read
    from it first. *)
Theorem C116_new_directory_refuted : ~ (forall {U} (os : outside U) json c, json <> "" -> fine_conversion os json c -> cv_dirs c json = None ->
  exists ds d, process os (cv_order c) (cv_order' c) (cv_dirs c) (cv_args c) = (Ok tt, [], ds) /\ ds json = Some d) /\
  (forall {U} (os : outside U) (order order' : listing) ds a, lists order -> ag_command a = CmdToJson -> ag_json a <> "" -> ds (ag_json a) = None ->
     exists e, process os order order' ds a = (Err e, [], ds)).
Proof.
  split.
  - intros H. destruct C116_ex as (F & _). inversion F as [|? ? F1 _]; subst. destruct (H _ ex_outside "j" ex_conversion) as (ds & d & E & _); [discriminate|exact F1|reflexivity|]. vm_compute in E. discriminate.
  - intros U os order order' ds a Ho C J D. apply (bad_stops os order order' ds a Ho). split; [exact J|]. now left.
Qed.
Print Assumptions C116_new_directory_refuted.
