(** * The files of a run and the rules *)
From Coq Require Import Permutation.
From Verif Require Import Base F32 Utf8 ConvertSpec Files BalanceFiles BalanceSpec BalanceFacts BalanceWrite BalanceXml BalanceJson BalanceJsonSpec Program ProgramSpec ProgramFacts PropsBalanceJson UnitViewSpec UnitViewFacts UnitFileSpec UnitFileFacts UnitRows.
#[local] Open Scope string_scope.
#[local] Open Scope Z_scope.
#[local] Open Scope list_scope.
Lemma files_rules : forall (os : outside jval) parse (order : dir_order) ds a d, os_dec os = unit_of_text parse -> good_disk d -> balance_files os order ds a d ->
  ((exists m, balance_data os order ds a = Ok m) <-> forall k s f c, unit_file d k s f c -> exists j, parse c = Some j /\ unit_json (by_name j)) /\
  (forall k s f c, unit_file d k s f c -> (forall j, parse c = Some j -> ~ unit_json (by_name j)) -> forall order', exists e, process os order order' ds a = (Err e, [], ds)).
Proof.
  intros os parse order ds a d Hd Hg Hf.
  assert (D : forall k s f c, unit_file d k s f c -> (unit_of_text parse c <> None <-> exists j, parse c = Some j /\ unit_json (by_name j))).
  { intros k s f c F. unfold unit_of_text. destruct (parse c) as [j|]; [|split; [congruence|intros (j & X & _); discriminate]]. split.
    - intros H. exists j. split; [reflexivity|]. apply all_readable. destruct (from_value j_unit j); [eauto|congruence].
    - intros (j' & X & H). injection X as <-. apply all_readable in H as (v & ->). discriminate. }
  assert (A : (exists m, balance_data os order ds a = Ok m) <-> forall k s f c, unit_file d k s f c -> unit_of_text parse c <> None).
  { unfold balance_data. rewrite Hd. destruct Hf as [(A & P)|(A & B & Ho)].
    - rewrite A. cbn [String.eqb]. exact (proj1 (proj2 (fail_together (unit_of_text parse) d (fun _ l => l) (os_assets os) Hg (fun p l => Permutation_refl l) P))).
    - apply String.eqb_neq in A. rewrite A, B. exact (proj1 (fail_together (unit_of_text parse) d order (assets_of d) Hg Ho (Permutation_refl _))). }
  split.
  - rewrite A. split; intros H k s f c F; apply (D k s f c F); eauto.
  - intros k s f c F N order'. assert (E : exists e, balance_data os order ds a = Err e).
    { assert (C : unit_of_text parse c = None). { destruct (unit_of_text parse c) eqn:C; [|reflexivity]. destruct (proj1 (D k s f c F)) as (j1 & P & J); [congruence|]. exfalso. exact (N j1 P J). }
      unfold balance_data. rewrite Hd. destruct Hf as [(Aj & P)|(Aj & B & Ho)].
      - rewrite Aj. cbn [String.eqb]. exact (assets_fail (unit_of_text parse) d (os_assets os) k s f c Hg P F C).
      - apply String.eqb_neq in Aj. rewrite Aj, B. exact (json_dir_fails (unit_of_text parse) order d k s f c Ho Hg F C). }
    destruct E as (e & E). exists e. unfold process. rewrite E. reflexivity.
Qed.
Lemma written_rules : forall v, is_unit v -> finite v -> unit_json (to_value j_unit v).
Proof. intros v H F. apply strict_readable. exists v. exact (BalanceJsonFacts.unit_round_trip v H F). Qed.
