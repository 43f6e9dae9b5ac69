(** * When a snapshot export succeeds *)
From Coq Require Import Permutation.
From Verif Require Import Base Types Convert State Merge MergeSpec MergeFacts MergeStreams DetailsData Rows Archive ArchiveSpec ArchiveFacts SnapshotFacts.
#[local] Open Scope string_scope.
#[local] Open Scope Z_scope.
#[local] Open Scope list_scope.

(** Reading this replay for an export does not stop the program: neither its
    lobby rows, nor opening it, nor going through its events. *)
Definition calm_replay (mc : machine) (w : world) (all : all_balance) (d : full_init) : Prop :=
  details_rows (mc_build mc) w d <> Panic /\ iterator_new (mc_build mc) w d all <> Panic /\
  forall st t g, opens (mc_build mc) w all d st t g -> collect mc (iterator_proto d) (merge_start st t g None) <> Panic.

Lemma split_no_err : forall n l, no_err (split_at n l).
Proof. intros. unfold split_at. destruct (boundary l n); discriminate. Qed.
Lemma hex_no_err : forall n l, (length l <= n)%nat -> no_err (hex_chars l).
Proof.
  induction n as [|n IH]; intros l Hl; [destruct l; [discriminate|cbn [length] in Hl; lia]|]. destruct l as [|a [|b l]]; [discriminate|discriminate|]. cbn [hex_chars length] in *.
  apply no_err_bind; [unfold hex_char; destruct (digit_of b); [|discriminate]; destruct (if a =? 43 then _ else _); discriminate|]. intros c _. apply no_err_bind; [apply IH; lia|discriminate].
Qed.
Lemma handles_no_err : forall hs e r s, no_err (handles_loop e r s hs).
Proof.
  induction hs as [|h hs IH]; intros e r s; cbn [handles_loop]; [discriminate|]. apply no_err_bind.
  - unfold split_handle. apply no_err_bind; [apply split_no_err|]. intros [? ?] _. apply no_err_bind; [eapply hex_no_err; reflexivity|]. intros ? _.
    apply no_err_bind; [apply split_no_err|]. intros [? ?] _. apply no_err_bind; [apply split_no_err|]. intros [? ?] _. apply no_err_bind; [eapply hex_no_err; reflexivity|]. discriminate.
  - intros [[? ?] ?] _. apply IH.
Qed.
Lemma lobby_row_no_err : forall x, no_err (lobby_row_of x).
Proof. intros x. unfold lobby_row_of. apply no_err_bind; [apply handles_no_err|]. intros [[? ?] ?] _. discriminate. Qed.
Lemma details_rows_no_err : forall m w d, no_err (details_rows m w d).
Proof. intros m w d. unfold details_rows. destruct (lobby_try_from m w d); [|discriminate..]. apply map_no_err. apply lobby_row_no_err. Qed.

Lemma map_out_calm : forall A B (f : A -> outcome B) l, (forall a, no_err (f a)) -> (exists r, map_out f l = Ok r) <-> (forall a, In a l -> f a <> Panic).
Proof.
  intros A B f l N. induction l as [|a l IH]; cbn [map_out In]; [split; [intros _ ? []|eauto]|]. split.
  - intros [r E]. apply obind_ok in E as (b & Eb & E). apply obind_ok in E as (bs & Es & E). intros x [<-|Hx]; [congruence|]. apply IH; eauto.
  - intros H. destruct (f a) as [b|e|] eqn:Ea; [|destruct (N a e Ea)|destruct (H a (or_introl eq_refl) Ea)]. destruct IH as [_ IH]. destruct IH as [r Er]; [intros; apply H; now right|].
    exists (b :: r). cbn [obind]. rewrite Er. reflexivity.
Qed.
Section Rows.
  Variables (A : Type) (mc : machine) (w : world) (all : all_balance) (rows : Z -> item -> list A).
  Hypothesis Hw : world_bytes w.
  Lemma source_rows_calm : forall d, source_rows mc w all rows d <> Panic <-> iterator_new (mc_build mc) w d all <> Panic /\
    (forall st t g, opens (mc_build mc) w all d st t g -> collect mc (iterator_proto d) (merge_start st t g None) <> Panic).
  Proof.
    intros d. unfold source_rows. destruct (iterator_new (mc_build mc) w d all) as [it|e|] eqn:Ei.
    - apply iterator_new_opens in Ei as (st & t & g & Ho & ->). unfold table. split.
      + intros H. split; [discriminate|]. intros st' t' g' Ho' Ec. apply H.
        assert (K : merge_start st' t' g' None = merge_start st t g None).
        { assert (K1 : iterator_new (mc_build mc) w d all = Ok (merge_start st t g None)) by (apply iterator_new_opens; eauto).
          assert (K2 : iterator_new (mc_build mc) w d all = Ok (merge_start st' t' g' None)) by (apply iterator_new_opens; eauto). congruence. }
        rewrite <- K, Ec. reflexivity.
      + intros [_ H]. specialize (H _ _ _ Ho). destruct (collect _ _ _); cbn [obind]; [discriminate|discriminate|contradiction].
    - split; [|discriminate]. intros _. split; [discriminate|]. intros st t g Ho. assert (K : iterator_new (mc_build mc) w d all = Ok (merge_start st t g None)) by (apply iterator_new_opens; eauto). congruence.
    - split; [contradiction|]. intros [K _]. contradiction.
  Qed.
  Lemma batches_calm : forall l, fst (batches (source_rows mc w all rows) l) = Ok tt <-> (forall d, In d l -> source_rows mc w all rows d <> Panic).
  Proof.
    induction l as [|d l IH]; cbn [batches In]; [split; [intros _ ? []|reflexivity]|].
    pose proof (source_rows_no_err A mc w all rows Hw d) as N. destruct (source_rows mc w all rows d) as [o|e|] eqn:Ed.
    - assert (K : fst (match o with None | Some [] => batches (source_rows mc w all rows) l | Some (r :: b) => let (o, bs) := batches (source_rows mc w all rows) l in (o, (r :: b) :: bs) end) = fst (batches (source_rows mc w all rows) l)).
      { destruct o as [[|r b]|]; [reflexivity| |reflexivity]. destruct (batches _ l). reflexivity. }
      assert (K' : (fst (match o with None | Some [] => batches (source_rows mc w all rows) l | Some (r :: b) => let (o, bs) := batches (source_rows mc w all rows) l in (o, (r :: b) :: bs) end) = Ok tt) <->
        (forall d0, d = d0 \/ In d0 l -> source_rows mc w all rows d0 <> Panic)).
      { rewrite K, IH. split; [intros H x [<-|Hx]; [congruence|exact (H x Hx)]|intros H x Hx; apply H; now right]. }
      destruct o as [[|r b]|]; exact K'.
    - destruct (N e eq_refl).
    - cbn [fst]. split; [discriminate|]. intros H. destruct (H d (or_introl eq_refl) Ed).
  Qed.
End Rows.

Lemma write_table_calm : forall mc w all ok order sources n, world_bytes w -> any_order order ->
  (forall d, In d sources -> calm_replay mc w all d) -> ok (table_file n) = true -> exists f, write_table mc w all ok order sources n = (Ok tt, [f]) /\ af_name f = table_file n /\ af_finished f = true.
Proof.
  intros mc w all ok order sources n Hw Ho Hc Hk. unfold write_table. destruct n; cbv zeta.
  { destruct (proj2 (map_out_calm _ _ (details_rows (mc_build mc) w) sources (details_rows_no_err _ _)) (fun d Hd => proj1 (Hc d Hd))) as [r Er].
    unfold all_details_rows. rewrite Er. cbn [obind]. rewrite Hk. eauto. }
  all: rewrite Hk; unfold file_of;
    match goal with |- context [batches ?f ?l] => assert (E : fst (batches f l) = Ok tt); [apply batches_calm; [exact Hw|]; intros d Hd; apply source_rows_calm; apply (Permutation_in (l' := sources)) in Hd; [exact (proj2 (Hc d Hd))|apply Permutation_sym, Ho]|rewrite E; eexists; split; [reflexivity|split; reflexivity]] end.
Qed.
Lemma write_table_needs : forall mc w all ok order sources n fs, world_bytes w -> any_order order -> write_table mc w all ok order sources n = (Ok tt, fs) ->
  ok (table_file n) = true /\ match n with TDetails => forall d, In d sources -> details_rows (mc_build mc) w d <> Panic
    | _ => forall d, In d sources -> iterator_new (mc_build mc) w d all <> Panic /\
      (forall st t g, opens (mc_build mc) w all d st t g -> collect mc (iterator_proto d) (merge_start st t g None) <> Panic) end.
Proof.
  intros mc w all ok order sources n fs Hw Ho E. unfold write_table in E. destruct n; cbv zeta in E.
  { destruct (all_details_rows (mc_build mc) w sources) as [rows|e|] eqn:Er; [|discriminate|discriminate]. destruct (ok (table_file TDetails)); [|discriminate]. split; [reflexivity|].
    unfold all_details_rows in Er. apply obind_ok in Er as (ls & El & Er). apply (map_out_calm _ _ (details_rows (mc_build mc) w) sources (details_rows_no_err _ _)). eauto. }
  all: match type of E with (if ?b then _ else _) = _ => destruct b; [|discriminate] end; split; [reflexivity|]; unfold file_of in E; injection E as E _; 
    match type of E with fst (batches (source_rows _ _ _ ?r) _) = _ => intros d Hd; apply (source_rows_calm _ mc w all r); apply (batches_calm _ mc w all r Hw _) with (d := d) in E; [exact E|]; apply (Permutation_in (l := sources)); [apply Ho|exact Hd] end.
Qed.
Lemma tables_calm : forall mc w all ok order sources l, world_bytes w -> any_order order -> (forall d, In d sources -> calm_replay mc w all d) -> (forall n, In n l -> ok (table_file n) = true) ->
  exists fs, write_tables (write_table mc w all ok order sources) l = (Ok tt, fs) /\ map af_name fs = map table_file l /\ Forall (fun f => af_finished f = true) fs.
Proof.
  intros mc w all ok order sources l Hw Ho Hc. induction l as [|n l IH]; intros Hk; cbn [write_tables map]; [exists []; auto|].
  destruct (write_table_calm mc w all ok order sources n Hw Ho Hc (Hk n (or_introl eq_refl))) as (f & E & En & Ef). rewrite E.
  destruct IH as (fs & E' & En' & Ef'); [intros; apply Hk; now right|]. rewrite E'. exists (f :: fs). split; [reflexivity|]. split; [cbn [map]; congruence|constructor; assumption].
Qed.
Lemma snapshot_ends : forall mc w all dir ok order sources, world_bytes w -> any_order order ->
  (fst (write_snapshot mc w all dir ok order sources) = Ok tt <->
   dir = true /\ (forall n, In n all_tables -> ok (table_file n) = true) /\ forall d, In d sources -> calm_replay mc w all d).
Proof.
  intros mc w all dir ok order sources Hw Ho. unfold write_snapshot. destruct dir; [|split; [discriminate|intros (H & _); discriminate]]. split.
  - intros E. split; [reflexivity|]. destruct (write_tables _ all_tables) as [o fs] eqn:Et. cbn [fst] in E. subst o. apply write_tables_ok in Et as (fss & F & _).
    assert (H : forall n, In n all_tables -> exists f, write_table mc w all ok order sources n = (Ok tt, f)).
    { intros n Hn. destruct (Forall2_find _ _ _ _ _ n F Hn) as (f & _ & Ef). eauto. }
    split; [intros n Hn; destruct (H n Hn) as [f Ef]; exact (proj1 (write_table_needs _ _ _ _ _ _ _ _ Hw Ho Ef))|].
    intros d Hd. destruct (H TDetails) as [f Ef]; [left; reflexivity|]. destruct (H TStats) as [f' Ef']; [right; left; reflexivity|]. split; [exact (proj2 (write_table_needs _ _ _ _ _ _ _ _ Hw Ho Ef) d Hd)|].
    exact (proj2 (write_table_needs _ _ _ _ _ _ _ _ Hw Ho Ef') d Hd).
  - intros (_ & Hk & Hc). destruct (tables_calm mc w all ok order sources all_tables Hw Ho Hc Hk) as (fs & E & _). now rewrite E.
Qed.
Lemma snapshot_not_created : forall mc w all ok order sources before n after, world_bytes w -> any_order order -> (forall d, In d sources -> calm_replay mc w all d) ->
  all_tables = before ++ n :: after -> (forall x, In x before -> ok (table_file x) = true) -> ok (table_file n) = false ->
  exists e fs, write_snapshot mc w all true ok order sources = (Err e, fs) /\ map af_name fs = map table_file before /\ Forall (fun f => af_finished f = true) fs.
Proof.
  intros mc w all ok order sources before n after Hw Ho Hc Ha Hk Hn. unfold write_snapshot. rewrite Ha. clear Ha. revert Hk.
  assert (Hs : exists e, write_table mc w all ok order sources n = (Err e, [])).
  { unfold write_table. destruct n; cbv zeta; try (rewrite Hn; eauto).
    destruct (proj2 (map_out_calm _ _ (details_rows (mc_build mc) w) sources (details_rows_no_err _ _)) (fun d Hd => proj1 (Hc d Hd))) as [r Er]. unfold all_details_rows. rewrite Er. cbn [obind]. eauto. }
  induction before as [|x before IH]; intros Hk; cbn [app write_tables map].
  - destruct Hs as [e Es]. rewrite Es. exists e, []. auto.
  - destruct (write_table_calm mc w all ok order sources x Hw Ho Hc (Hk x (or_introl eq_refl))) as (f & E & En & Ef). rewrite E.
    destruct IH as (e & fs & E' & En' & Ef'); [intros; apply Hk; now right|]. rewrite E'. exists e, (f :: fs). split; [reflexivity|]. split; [cbn [map]; congruence|constructor; assumption].
Qed.
