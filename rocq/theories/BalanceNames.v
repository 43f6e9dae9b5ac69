(** * Where a unit is written, whatever its name, and what is read of it *)
From Coq Require Import Ascii Permutation.
From Verif Require Import Base Utf8 Convert ConvertSpec DetailsData Files FilesFacts BalanceFiles BalanceSpec BalanceText BalanceFacts BalanceWrite.
#[local] Open Scope string_scope.
#[local] Open Scope Z_scope.
#[local] Open Scope list_scope.

(** The parts of a path that name something. *)
Definition naming (parts : list string) : path := filter (fun c => negb (existsb (String.eqb c) [""; "."])) parts.
Lemma filter_same : forall A (f g : A -> bool) l, (forall x, f x = g x) -> filter f l = filter g l.
Proof. intros A f g l H. induction l as [|x l IH]; [reflexivity|]. cbn [filter]. now rewrite H, IH. Qed.
Lemma components_parts : forall v parts, 0 <= v < two32 -> parts <> [] -> Forall (fun n => ~ contains "/" n) parts ->
  components (show_u32 v ++ "/" ++ String.concat "/" parts)%string = show_u32 v :: naming parts.
Proof.
  intros v parts Hv Hne F. unfold components. rewrite split_join; [|apply show_no_char; [exact Hv|apply slash_not_digit]]. rewrite split_concat by assumption.
  cbn [filter]. destruct (show_ne v Hv) as [H1 _].
  assert (E1 : String.eqb (show_u32 v) "" = false) by (now apply String.eqb_neq).
  assert (E2 : String.eqb (show_u32 v) "." = false).
  { apply String.eqb_neq. intros E. destruct (show_digits_list v Hv) as (l & El & Hl & Hd). rewrite E in El. cbn in El. subst l. destruct Hd as [[K _] _]. vm_compute in K. now apply K. }
  rewrite E1, E2. cbn [negb andb]. f_equal. apply filter_same. intros x. cbn [existsb]. rewrite orb_false_r, negb_orb. reflexivity.
Qed.
Lemma naming_ok : forall parts, Forall (fun n => ~ contains "/" n) parts -> Forall (fun n => n <> "" /\ ~ contains "/" n) (naming parts).
Proof.
  intros parts F. unfold naming. rewrite Forall_forall in F |- *. intros x Hx. apply filter_In in Hx as [Hi Hx]. split; [|now apply F]. intros ->. cbn in Hx. discriminate.
Qed.
Definition only_dirs (p : path) (d : disk) : Prop :=
  good_disk d /\ (forall q x, In (q, x) d -> x = DDir /\ (length q <= length p)%nat) /\ (p = [] \/ dget p d = Some DDir) /\ Forall (fun n => n <> "" /\ ~ contains "/" n) p.
Lemma dget_deep : forall p d q, only_dirs p d -> (length p < length q)%nat -> dget q d = None.
Proof. intros p d q (_ & H & _) Hq. destruct (dget q d) as [x|] eqn:E; [|reflexivity]. apply dget_in in E. destruct (H _ _ E). lia. Qed.
Lemma mkdirs_new : forall rest p d, only_dirs p d -> Forall (fun n => n <> "" /\ ~ contains "/" n) rest -> exists d', mkdirs p rest d = Ok d' /\ only_dirs (p ++ rest) d'.
Proof.
  induction rest as [|c rest IH]; intros p d Hd F; cbn [mkdirs].
  - exists d. rewrite app_nil_r. auto.
  - inversion F as [|? ? Hc F']; subst.
    assert (En : dget (p ++ [c]) d = None) by (apply (dget_deep p); [exact Hd|rewrite app_length; cbn; lia]). rewrite En.
    destruct (IH (p ++ [c]) (dset (p ++ [c]) DDir d)) as (d' & E & H').
    + destruct Hd as (Hg & Hl & Hp & Fp).
      assert (Hg' : good_disk (dset (p ++ [c]) DDir d)) by (apply good_dset; [exact Hg|apply Hc|apply Hc|exact Hp|now left|exact Fp]).
      split; [exact Hg'|]. split; [|split; [|apply Forall_app; split; [exact Fp|now constructor]]].
      * intros q x Hi. apply (in_dget _ _ _ (proj1 Hg')) in Hi. rewrite dget_dset in Hi. destruct (path_eqb_spec (p ++ [c]) q) as [<-|_]; [split; [congruence|lia]|].
        apply dget_in in Hi. destruct (Hl _ _ Hi) as [-> K]. split; [reflexivity|]. rewrite app_length. cbn. lia.
      * right. rewrite dget_dset. destruct (path_eqb_spec (p ++ [c]) (p ++ [c])); [reflexivity|congruence].
    + exact F'.
    + exists d'. split; [exact E|]. now rewrite <- app_assoc in H'.
Qed.

Section Names.
  Context {U : Type}.
  Variable enc : U -> list Z.
  Variable dec : list Z -> option U.
  Lemma one_unit_written : forall k u parts, 0 <= fst k < two32 -> String.concat "/" parts = (snd k ++ ".json")%string -> Forall (fun n => ~ contains "/" n) parts ->
    ~ contains "000" (snd k) -> ~ In ".." parts ->
    exists d, write_json enc [(k, u)] [] = (Ok tt, d) /\ good_disk d /\ forall p c, In (p, DFile c) d <-> p = show_u32 (fst k) :: naming parts /\ c = enc u.
  Proof.
    intros [v n] u parts Hv Ec F Hz Hdd. cbn [fst snd] in *. cbn [write_json]. unfold write_unit. cbn [fst snd].
    assert (Hne : parts <> []). { intros ->. apply (f_equal String.length) in Ec. rewrite slen_app in Ec. cbn in Ec. lia. }
    assert (Ep : components (show_u32 v ++ "/" ++ n ++ ".json")%string = show_u32 v :: naming parts) by (rewrite <- Ec; now apply components_parts).
    rewrite Ep. destruct (show_ne v Hv) as [Hs1 Hs2].
    assert (Hss : ~ contains "/" (show_u32 v)) by (apply show_no_char; [exact Hv|apply slash_not_digit]).
    assert (E0 : has_nul (show_u32 v ++ "/" ++ n ++ ".json") = false).
    { apply not_true_is_false. intros K. apply has_nul_spec in K. rewrite !contains_app in K. destruct K as [K|[K|[K|K]]].
      - revert K. apply show_no_char; [exact Hv|apply nul_not_digit].
      - vm_compute in K. destruct K as [K|[]]. discriminate.
      - now apply Hz.
      - now apply json_no_nul. }
    assert (E1 : existsb (String.eqb "..") (show_u32 v :: naming parts) = false).
    { apply not_true_is_false. intros K. apply existsb_exists in K as (x & Hx & K). apply String.eqb_eq in K. subst x. destruct Hx as [Hx|Hx]; [congruence|]. apply filter_In in Hx as [Hx _]. now apply Hdd. }
    rewrite E0, E1. cbn [orb]. set (full := show_u32 v :: naming parts).
    assert (Hf : Forall (fun n => n <> "" /\ ~ contains "/" n) full) by (constructor; [split; assumption|now apply naming_ok]).
    assert (El : full = removelast full ++ [last full ""]) by (apply app_removelast_last; discriminate).
    assert (Hr : Forall (fun n => n <> "" /\ ~ contains "/" n) (removelast full)) by (rewrite El in Hf; now apply Forall_app in Hf).
    assert (Hla : last full "" <> "" /\ ~ contains "/" (last full "")) by (rewrite El in Hf; apply Forall_app in Hf as [_ Hf]; now inversion Hf).
    destruct (mkdirs_new (removelast full) [] []) as (d1 & Ed & Hd1).
    { split; [split; [constructor|split; [constructor|intros p m x []]]|]. split; [intros q x []|]. split; [now left|constructor]. }
    { exact Hr. }
    cbn [app] in Hd1. rewrite Ed. cbn [obind]. unfold create.
    assert (Hx : dget full d1 = None). { apply (dget_deep (removelast full)); [exact Hd1|]. rewrite El at 2. rewrite app_length. cbn. lia. }
    rewrite Hx. exists (dset full (DFile (enc u)) d1). split; [reflexivity|].
    destruct Hd1 as (Hg & Hl & Hp & _).
    assert (Hg' : good_disk (dset full (DFile (enc u)) d1)).
    { rewrite El. apply good_dset; [exact Hg|apply Hla|apply Hla|exact Hp|left; now rewrite <- El|exact Hr]. }
    split; [exact Hg'|]. intros p c. split.
    - intros Hi. apply (in_dget _ _ _ (proj1 Hg')) in Hi. rewrite dget_dset in Hi. destruct (path_eqb_spec full p) as [<-|_]; [split; [reflexivity|congruence]|].
      apply dget_in in Hi. destruct (Hl _ _ Hi). discriminate.
    - intros [-> ->]. apply dget_in. rewrite dget_dset. destruct (path_eqb_spec full full); [reflexivity|congruence].
  Qed.
  Lemma any_name : forall k u parts, dec (enc u) = Some u -> 0 <= fst k < two32 -> String.concat "/" parts = (snd k ++ ".json")%string -> Forall (fun n => ~ contains "/" n) parts ->
    ~ contains "000" (snd k) -> ~ In ".." parts ->
    exists d s, write_json enc [(k, u)] [] = (Ok tt, d) /\ numeral s (fst k) /\ (forall p c, In (p, DFile c) d <-> p = s :: naming parts /\ c = enc u) /\
      forall order, lists order -> exists m, read_json_dir dec order d = Ok m /\
        forall k' u', uget k' m = Some u' <-> u' = u /\ fst k' = fst k /\ exists f, naming parts = [f] /\ bare_name f (snd k').
  Proof.
    intros k u parts Hdec Hv Ec F Hz Hdd. destruct (one_unit_written k u parts Hv Ec F Hz Hdd) as (d & E & Hg & Hf). exists d, (show_u32 (fst k)).
    split; [exact E|]. split; [now apply show_numeral|]. split; [exact Hf|]. intros order Ho.
    assert (K : forall k' s f c, unit_file d k' s f c <-> c = enc u /\ s = show_u32 (fst k) /\ fst k' = fst k /\ naming parts = [f] /\ bare_name f (snd k')).
    { intros k' s f c. unfold unit_file. rewrite Hf. split.
      - intros ([Ep ->] & Hn & Hb). injection Ep as -> En. split; [reflexivity|]. split; [reflexivity|]. split; [|split; [now symmetry|exact Hb]].
        eapply numeral_fun; [exact Hn|now apply show_numeral].
      - intros (-> & -> & Ev & En & Hb). split; [split; [now rewrite En|reflexivity]|]. split; [rewrite Ev; now apply show_numeral|exact Hb]. }
    destruct (json_dir_reads dec order d Ho Hg) as (m & Em & _ & _ & Hu).
    { intros k' s f c Hk. apply K in Hk as (-> & _). rewrite Hdec. discriminate. }
    exists m. split; [exact Em|]. intros k' u'. rewrite Hu.
    - split.
      + intros (s & f & c & Hk & Hc). apply K in Hk as (-> & _ & Ev & En & Hb). split; [congruence|]. split; [exact Ev|]. exists f. auto.
      + intros (-> & Ev & f & En & Hb). exists (show_u32 (fst k)), f, (enc u). split; [|exact Hdec]. apply K. auto.
    - intros k1 s1 f1 c1 s2 f2 c2 H1 H2. apply K in H1 as (_ & -> & _ & E1 & _). apply K in H2 as (_ & -> & _ & E2 & _). split; congruence.
  Qed.
  Lemma which_names : forall k u parts order, dec (enc u) = Some u -> 0 <= fst k < two32 -> String.concat "/" parts = (snd k ++ ".json")%string -> Forall (fun n => ~ contains "/" n) parts ->
    ~ In ".." parts -> lists order ->
    ((exists d m, write_json enc [(k, u)] [] = (Ok tt, d) /\ read_json_dir dec order d = Ok m /\ uget k m = Some u) <-> plain (snd k)).
  Proof.
    intros k u parts order Hdec Hv Ec F Hdd Ho. split.
    - intros (d & m & E & Em & Hu).
      assert (Hz : ~ contains "000" (snd k)).
      { intros Hz. cbn [write_json] in E. unfold write_unit in E. assert (E0 : has_nul (show_u32 (fst k) ++ "/" ++ snd k ++ ".json") = true) by (apply has_nul_spec; rewrite !contains_app; auto). rewrite E0 in E. discriminate. }
      destruct (any_name k u parts Hdec Hv Ec F Hz Hdd) as (d' & s & E' & _ & _ & R). rewrite E in E'. injection E' as <-. destruct (R order Ho) as (m' & Em' & Hm). rewrite Em in Em'. injection Em' as <-.
      apply Hm in Hu as (_ & _ & f & En & Hb & (j & Ej)). split; [|split; [exact Hz|exact Hb]].
      assert (Hin : In f (naming parts)) by (rewrite En; now left). apply filter_In in Hin as [Hin _]. rewrite Forall_forall in F. specialize (F _ Hin). rewrite Ej, contains_app in F. auto.
    - intros Hp. pose proof Hp as (Hs & Hz & Hj). destruct (any_name k u parts Hdec Hv Ec F Hz Hdd) as (d & s & E & _ & _ & R). destruct (R order Ho) as (m & Em & Hm).
      exists d, m. split; [exact E|]. split; [exact Em|]. apply Hm. split; [reflexivity|]. split; [reflexivity|]. exists (file_name (snd k)). split; [|now apply bare_file].
      assert (Es : ~ contains "/" (file_name (snd k))) by (unfold file_name; rewrite contains_app; intros [K|K]; [now apply Hs|now apply json_no_slash]).
      assert (Hne : parts <> []). { intros ->. apply (f_equal String.length) in Ec. rewrite slen_app in Ec. cbn in Ec. lia. }
      pose proof (split_concat parts Hne F) as S. rewrite Ec in S. fold (file_name (snd k)) in S. rewrite (split_plain _ Es) in S. rewrite <- S. unfold naming. cbn [filter existsb].
      assert (E1 : String.eqb (file_name (snd k)) "" = false). { apply String.eqb_neq. intros K. apply (f_equal String.length) in K. unfold file_name in K. rewrite slen_app in K. cbn in K. lia. }
      assert (E2 : String.eqb (file_name (snd k)) "." = false). { apply String.eqb_neq. intros K. apply (f_equal String.length) in K. unfold file_name in K. rewrite slen_app in K. cbn in K. lia. }
      rewrite E1, E2. reflexivity.
  Qed.
End Names.
