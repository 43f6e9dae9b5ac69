(** * Proofs about the program *)
From Coq Require Import Ascii Permutation.
From Verif Require Import Base Utf8 Convert ConvertSpec Tags Files Archive Cli BalanceFiles BalanceSpec BalanceText BalanceFacts BalanceWrite BalanceXml Program ProgramSpec.
#[local] Open Scope string_scope.
#[local] Open Scope Z_scope.
#[local] Open Scope list_scope.

Section Facts.
  Context {U : Type}.
  Variable os : outside U.

  Lemma put_dir_same : forall s d ds, put_dir s d ds s = Some d.
  Proof. intros. unfold put_dir. now rewrite String.eqb_refl. Qed.
  Lemma put_dir_other : forall s d ds s', s' <> s -> put_dir s d ds s' = ds s'.
  Proof. intros s d ds s' H. unfold put_dir. destruct (String.eqb_spec s' s); [congruence|reflexivity]. Qed.

  Lemma balance_bad : forall order ds a, lists order -> bad_json os ds (ag_json a) -> exists e, balance_data os order ds a = Err e.
  Proof.
    intros order ds a Ho (Hj & H). unfold balance_data. destruct (String.eqb_spec (ag_json a) ""); [congruence|].
    destruct H as [->|(d & k & s & f & c & -> & Hg & Hf & Hc)]; [eauto|]. exact (json_dir_fails (os_dec os) order d k s f c Ho Hg Hf Hc).
  Qed.
  Lemma bad_stops : forall order order' ds a, lists order -> bad_json os ds (ag_json a) ->
    (exists e, process os order order' ds a = (Err e, [], ds)) /\ main_run os order order' ds a = (Panic, [], ds).
  Proof.
    intros order order' ds a Ho Hb. destruct (balance_bad order ds a Ho Hb) as (e & E). assert (P : process os order order' ds a = (Err e, [], ds)) by (unfold process; rewrite E; reflexivity).
    split; [eauto|]. unfold main_run. now rewrite P.
  Qed.
  Lemma main_spec : forall order order' ds a, main_run os order order' ds a =
    (match fst (fst (process os order order' ds a)) with Ok _ => Ok tt | _ => Panic end, snd (fst (process os order order' ds a)), snd (process os order order' ds a)).
  Proof. intros. unfold main_run. destruct (process os order order' ds a) as [[o l] ds']. reflexivity. Qed.
  Lemma xml_unused : forall order order' ds a x, process os order order' ds (mk_args (ag_source a) x (ag_json a) (ag_output a) (ag_command a) (ag_options a)) = process os order order' ds a.
  Proof. intros order order' ds [s x0 j o c k] x. reflexivity. Qed.
  Lemma others_keep : forall order order' ds a, ag_command a <> CmdToJson -> snd (process os order order' ds a) = ds.
  Proof.
    intros order order' ds a H. unfold process. destruct (balance_data os order ds a) as [m|e|]; cbn [use_run]; [|reflexivity|reflexivity].
    destruct (ag_command a) as [| | |r|c|tag]; [|congruence| | | |].
    - destruct (ag_output a) as [out|]; [|reflexivity]. destruct (os_generate os (ag_source a) out); reflexivity.
    - destruct (scan_path _ _ _ _ _ _); reflexivity.
    - destruct (balance_data os order' ds a) as [m'|e|]; cbn [use_run]; [|reflexivity|reflexivity]. destruct (handle_get_cmd _ _ _ _ _ _ _); reflexivity.
    - destruct (ag_output a) as [out|]; [|reflexivity]. destruct (export_replays _ _ _ _ _ _ _ _ _); reflexivity.
    - reflexivity.
  Qed.
  Lemma to_json_keeps_others : forall order order' ds a s, s <> ag_json a -> snd (process os order order' ds a) s = ds s.
  Proof.
    intros order order' ds a s Hs. destruct (ag_command a) eqn:C; try (rewrite others_keep; [reflexivity|congruence]).
    unfold process. rewrite C. destruct (balance_data os order ds a) as [m|e|]; cbn [use_run]; [|reflexivity|reflexivity]. unfold to_json.
    destruct (String.eqb (ag_source a) ""); [reflexivity|]. destruct (String.eqb (ag_json a) ""); [reflexivity|].
    destruct (traverse_xml _ _ _ _) as [m'|e|]; cbn [use_run]; [|reflexivity|reflexivity]. destruct (write_json _ _ _) as [o d]. cbn [snd]. now apply put_dir_other.
  Qed.
  Lemma no_output : forall order order' ds a m, balance_data os order ds a = Ok m -> ag_output a = None -> (ag_command a = CmdGenerate \/ exists c, ag_command a = CmdExport c) ->
    process os order order' ds a = (Panic, [], ds).
  Proof. intros order order' ds a m E Ho H. unfold process. rewrite E. cbn [use_run]. destruct H as [->|(c & ->)]; rewrite Ho; reflexivity. Qed.
  Lemma tag_run : forall order order' ds a m tag, balance_data os order ds a = Ok m -> ag_command a = CmdTag tag ->
    process os order order' ds a = (Ok tt, [FTag ((tag / 2 ^ 18) mod 2 ^ 14) (tag mod 2 ^ 18)], ds).
  Proof.
    intros order order' ds a m tag E C. unfold process. rewrite E, C. cbn [use_run]. unfold unit_tag_index, unit_tag_recycle, as_u32.
    change 0x3fff with (Z.ones 14). change 0x3ffff with (Z.ones 18). rewrite !Z.land_ones, Z.shiftr_div_pow2 by lia.
    assert (H1 := Z.mod_pos_bound (tag / 2 ^ 18) (2 ^ 14) eq_refl). assert (H2 := Z.mod_pos_bound tag (2 ^ 18) eq_refl).
    rewrite (Z.mod_small (_ mod 2 ^ 14)), (Z.mod_small (_ mod 2 ^ 18)) by (unfold two32; lia). reflexivity.
  Qed.
  Lemma missing_arguments : forall order order' ds a m, balance_data os order ds a = Ok m -> ag_command a = CmdToJson -> ag_source a = "" \/ ag_json a = "" ->
    exists e, process os order order' ds a = (Err e, [], ds).
  Proof.
    intros order order' ds a m E C H. unfold process. rewrite E, C. cbn [use_run]. unfold to_json. destruct (String.eqb_spec (ag_source a) ""); [eauto|]. destruct H as [H|H]; [congruence|]. rewrite H. cbn. eauto.
  Qed.
  Lemma no_source : forall order order' ds a m d, balance_data os order ds a = Ok m -> ag_command a = CmdToJson -> ag_source a <> "" -> ag_json a <> "" -> ds (ag_source a) = None -> ds (ag_json a) = Some d ->
    exists ds', process os order order' ds a = (Ok tt, [], ds') /\ forall s, ds' s = ds s.
  Proof.
    intros order order' ds a m d E C Hs Hj Hx Hd. unfold process. rewrite E, C. cbn [use_run]. unfold to_json. destruct (String.eqb_spec (ag_source a) ""); [congruence|].
    destruct (String.eqb_spec (ag_json a) ""); [congruence|]. rewrite Hx, Hd. cbn. eexists. split; [reflexivity|]. intros s. unfold put_dir. destruct (String.eqb_spec s (ag_json a)); congruence.
  Qed.

  (** ** Histories of conversions *)
  Definition tripping (m : units U) : Prop := forall k u, uget k m = Some u -> os_dec os (os_enc os u) = Some u.
  Lemma reads_back : forall d m order, tripping m -> holds (os_enc os) d m -> lists order -> exists m', read_json_dir (os_dec os) order d = Ok m' /\ forall k, uget k m' = uget k m.
  Proof.
    intros d m order T Hh Ho. pose proof Hh as (Hg & _).
    destruct (json_dir_reads (os_dec os) order d Ho Hg) as (m' & E & _ & _ & Hu); [intros k s f c; apply (holds_decodes (os_enc os) (os_dec os) d m); assumption|].
    exists m'. split; [exact E|]. apply (holds_same (os_enc os) (os_dec os) d); [exact T|exact Hh|]. apply Hu. exact (holds_clash (os_enc os) d m Hh).
  Qed.
  Lemma xml_map : forall json c, fine_conversion os json c -> exists m, traverse_xml (os_id os) (os_xml os) (cv_order' c) (cv_xml c) = Ok m /\ storable m /\ tripping m /\
    forall k u, uget k m = Some u <-> has_unit os (cv_xml c) k u.
  Proof.
    intros json c (Ho1 & Ho2 & _ & _ & _ & _ & H). destruct (cv_xml c) as [d|].
    - destruct (H d eq_refl) as (Hg & Ht & Hp & Hu). destruct (xml_reads (os_id os) (os_xml os) (cv_order' c) d Ho2 Hg Ht) as (m & E & Hn & H1 & H2).
      assert (K : forall k u, uget k m = Some u <-> has_unit os (Some d) k u).
      { intros k u. split.
        - intros Hk. destruct (H1 _ _ Hk) as (Hi & s & f & b & Hf & Hb). exists d, s, f. split; [reflexivity|]. exists b. auto.
        - intros (d' & s & f & [= <-] & b & Hf & Hb & Hi). destruct (uget k m) as [u'|] eqn:Eu.
          + destruct (H1 _ _ Eu) as (Hi' & s' & f' & b' & Hf' & Hb'). f_equal. eapply (Hu k); [exists b'; split; [exact Hf'|split; [exact Hb'|now symmetry]]|exists b; eauto].
          + exfalso. apply (H2 (fst k) s f b u Hf Hb). rewrite Hi. rewrite <- surjective_pairing. exact Eu. }
      exists m. split; [exact E|]. split; [|split; [|exact K]].
      + split; [exact Hn|]. apply Forall_forall. intros [k u] Hi. cbn [fst]. pose proof (in_uget m k u Hn Hi) as Hk. apply K in Hk as (d' & s & f & [= <-] & Hk).
        split; [|eapply Hp; exact Hk]. destruct Hk as (b & Hf & _). destruct Hf as (_ & _ & Hs & _). eapply numeral_range; exact Hs.
      + intros k u Hk. apply K in Hk as (d' & s & f & [= <-] & Hk). eapply Hp; exact Hk.
    - exists []. split; [reflexivity|]. split; [split; constructor|]. split; [intros k u; discriminate|]. intros k u. split; [discriminate|]. intros (d & s & f & K & _). discriminate.
  Qed.
  Lemma one_conversion : forall json c d m, json <> "" -> fine_conversion os json c -> holds (os_enc os) d m -> tripping m ->
    exists d1 m1 ds, process os (cv_order c) (cv_order' c) (put_dir json d (cv_dirs c)) (cv_args c) = (Ok tt, [], ds) /\ ds json = Some d1 /\ holds (os_enc os) d1 m1 /\ tripping m1 /\
      forall k u, uget k m1 = Some u <-> has_unit os (cv_xml c) k u \/ ((forall u', ~ has_unit os (cv_xml c) k u') /\ uget k m = Some u).
  Proof.
    intros json c d m Hj Hf Hh T. destruct (xml_map json c Hf) as (mx & Ex & Sx & Tx & Kx). destruct Hf as (Ho1 & Ho2 & C & J & S & SJ & _).
    destruct (reads_back d m (cv_order c) T Hh Ho1) as (m0 & E0 & _). destruct Sx as [Nx Fx].
    destruct (write_json_holds (os_enc os) mx d m Hh) as (d1 & m1 & Ew & Hh1 & Hm1).
    { apply Forall_forall. intros e Hi. rewrite Forall_forall in Fx. exact (Fx e Hi). }
    specialize (Hm1 Nx). exists d1, m1, (put_dir json d1 (put_dir json d (cv_dirs c))). split; [|split; [apply put_dir_same|split; [exact Hh1|split]]].
    - unfold process, balance_data. rewrite J, put_dir_same. destruct (String.eqb_spec json ""); [congruence|]. rewrite E0. cbn [use_run]. rewrite C. unfold to_json.
      destruct (String.eqb_spec (ag_source (cv_args c)) ""); [congruence|]. rewrite J. destruct (String.eqb_spec json ""); [congruence|].
      rewrite put_dir_other by exact SJ. fold (cv_xml c). rewrite Ex. cbn [use_run]. rewrite put_dir_same, Ew. reflexivity.
    - intros k u Hk. rewrite Hm1 in Hk. destruct (uget k mx) as [u'|] eqn:Eu; [injection Hk as ->; exact (Tx _ _ Eu)|exact (T _ _ Hk)].
    - intros k u. rewrite Hm1. destruct (uget k mx) as [u'|] eqn:Eu.
      + split; [intros [= ->]; left; now apply Kx|]. intros [Hu|[Hn _]]; [apply Kx in Hu; congruence|exfalso; apply (Hn u'); now apply Kx].
      + split; [intros Hk; right; split; [intros u' Hu'; apply Kx in Hu'; congruence|exact Hk]|]. intros [Hu|[_ Hk]]; [apply Kx in Hu; congruence|exact Hk].
  Qed.
  Lemma latest_dec : forall json l k, Forall (fine_conversion os json) l -> (exists u, latest os k u (map cv_xml l)) \/ (forall u, ~ latest os k u (map cv_xml l)).
  Proof.
    intros json l k F. induction F as [|c l Hc F IH]; cbn [map latest]; [right; auto|]. destruct IH as [(u & Hu)|IH]; [left; eauto|].
    destruct (xml_map json c Hc) as (m & _ & _ & _ & K). destruct (uget k m) as [u|] eqn:E.
    - left. exists u. right. split; [intros (u' & Hu'); exact (IH _ Hu')|now apply K].
    - right. intros u [Hu|[_ Hu]]; [exact (IH _ Hu)|apply K in Hu; congruence].
  Qed.
  Lemma conversions_hold : forall json l d m, json <> "" -> Forall (fine_conversion os json) l -> holds (os_enc os) d m -> tripping m ->
    exists d' m', converts os json d l d' /\ holds (os_enc os) d' m' /\ tripping m' /\
      forall k u, uget k m' = Some u <-> latest os k u (map cv_xml l) \/ ((forall u', ~ latest os k u' (map cv_xml l)) /\ uget k m = Some u).
  Proof.
    intros json l. induction l as [|c l IH]; intros d m Hj F Hh T.
    - exists d, m. split; [constructor|]. split; [exact Hh|]. split; [exact T|]. intros k u. cbn [map latest]. intuition.
    - inversion F as [|? ? Hc F']; subst. destruct (one_conversion json c d m Hj Hc Hh T) as (d1 & m1 & ds & E & Ed & Hh1 & T1 & K1).
      destruct (IH d1 m1 Hj F' Hh1 T1) as (d' & m' & Ec & Hh' & T' & K'). exists d', m'. split; [econstructor; eassumption|]. split; [exact Hh'|]. split; [exact T'|].
      intros k u. rewrite K', K1. cbn [map latest]. destruct (latest_dec json l k F') as [(u0 & Hu0)|Hn].
      + split; [intros [Hu|[Hn _]]; [auto|now destruct (Hn u0)]|]. intros [[Hu|[Hn _]]|[Hn _]]; [auto|exfalso; eauto|exfalso; apply (Hn u0); auto].
      + split.
        * intros [Hu|[_ [Hu|[Hx Hk]]]]; [now destruct (Hn u)|left; right; split; [intros (u' & Hu'); exact (Hn _ Hu')|exact Hu]|].
          right. split; [|exact Hk]. intros u' [Hu'|[_ Hu']]; [exact (Hn _ Hu')|exact (Hx _ Hu')].
        * intros [[Hu|[_ Hu]]|[Hx Hk]]; [now destruct (Hn u)|right; auto|]. right. split; [exact Hn|]. right. split; [|exact Hk]. intros u' Hu'. apply (Hx u'). right. split; [intros (u2 & H2); exact (Hn _ H2)|exact Hu'].
  Qed.
  Lemma history : forall json l, json <> "" -> Forall (fine_conversion os json) l ->
    exists d', converts os json [] l d' /\ forall order ds a, lists order -> ag_json a = json -> ds json = Some d' ->
      exists m, balance_data os order ds a = Ok m /\ forall k u, uget k m = Some u <-> latest os k u (map cv_xml l).
  Proof.
    intros json l Hj F. destruct (conversions_hold json l [] [] Hj F (holds_empty _)) as (d' & m' & Ec & Hh & T & K); [intros k u; discriminate|].
    exists d'. split; [exact Ec|]. intros order ds a Ho J Hd. destruct (reads_back d' m' order T Hh Ho) as (m & E & Hm). exists m. split.
    - unfold balance_data. rewrite J, Hd. destruct (String.eqb_spec json ""); [congruence|exact E].
    - intros k u. rewrite Hm, K. split; [intros [H|[_ H]]; [exact H|discriminate]|auto].
  Qed.
  Lemma converts_fun : forall json d l d1 d2, converts os json d l d1 -> converts os json d l d2 -> d1 = d2.
  Proof.
    intros json d l d1 d2 H. revert d2. induction H as [d|d c l d1 d' ds E Ed _ IH]; intros d2 H2; inversion H2 as [|? ? ? d1' ? ds' E' Ed' H']; subst; [reflexivity|].
    apply IH. assert (ds' = ds) by congruence. subst. assert (d1' = d1) by congruence. now subst.
  Qed.
  Lemma export_uses : forall order order' ds a m c out, balance_data os order ds a = Ok m -> ag_command a = CmdExport c -> ag_output a = Some out ->
    process os order order' ds a = (let (o, l) := export_replays (os_machine os) (os_tree os) (os_world os) (viewed os m) (os_is_dir os out) (os_creates os out) (os_arrival os) (os_path os (ag_source a)) c in (o, [FArrow l], ds)).
  Proof. intros order order' ds a m c out E C O. unfold process. rewrite E, C, O. reflexivity. Qed.
  Lemma get_uses : forall order order' ds a m m' r, balance_data os order ds a = Ok m -> balance_data os order' ds a = Ok m' -> ag_command a = CmdGet r ->
    process os order order' ds a = (let (o, l) := handle_get_cmd (os_machine os) (os_tree os) (os_world os) (viewed os m') (ag_options a) r (os_path os (ag_source a)) in (o, [FPrinted l], ds)).
  Proof. intros order order' ds a m m' r E E' C. unfold process. rewrite E, C. cbn [use_run]. rewrite E'. reflexivity. Qed.
End Facts.
