(** * C91, C92: schedules of the parallel writers *)
From Coq Require Import Permutation.
From Verif Require Import Base Types Balance DetailsData State StateExample Merge Rows Files Archive ArchiveSpec SnapshotFacts PropsArchive Writers WritersFacts.
#[local] Open Scope string_scope.
#[local] Open Scope Z_scope.
#[local] Open Scope list_scope.

Section Tables.
  Context {A : Type}.
  Variables (mc : machine) (w : world) (all : all_balance) (rows : Z -> item -> list A) (enc : list A -> list Z).
  Hypothesis Hw : world_bytes w.
  Lemma ended_file : forall head sources n p, psteps (source_rows mc w all rows) enc false n (at_start head sources) p -> all_done p ->
    exists order per, Permutation sources order /\ Forall2 (source_table mc w all rows) order per /\
      po_file p = head ++ concat (map enc (filter has_rows per)) /\
      total_records p = fold_right Z.add 0 (map (fun b => Z.of_nat (length b)) (filter has_rows per)).
  Proof.
    intros head sources n p Hs Hd. destruct (all_written _ _ _ _ _ _ Hs Hd) as (order & Hp & Hb & Hf & Ht).
    destruct (batches (source_rows mc w all rows) order) as [o bs] eqn:E. cbn [fst snd] in *. subst o.
    destruct (batches_ok A mc w all rows Hw order _ _ E) as (_ & per & F & ->); [discriminate|]. exists order, per. auto.
  Qed.
  Lemma batch_table : forall d, batch (source_rows mc w all rows) d <> [] -> source_table mc w all rows d (batch (source_rows mc w all rows) d).
  Proof.
    intros d. unfold batch. pose proof (source_rows_ok A mc w all rows d) as K. destruct (source_rows mc w all rows d) as [[b|]|e|]; try congruence. intros _. exact (K _ eq_refl).
  Qed.
  Lemma interrupted_file : forall head sources n p, psteps (source_rows mc w all rows) enc false n (at_start head sources) p ->
    exists before rest per part, Permutation sources (before ++ rest) /\ Forall2 (source_table mc w all rows) before per /\ Forall (fun b => b <> []) per /\
      po_file p = head ++ concat (map enc per) ++ part /\
      (part = [] \/ exists d b more, In d rest /\ source_table mc w all rows d b /\ b <> [] /\ enc b = part ++ more).
  Proof.
    intros head sources n p Hs. destruct (never_torn _ _ _ _ _ _ Hs) as (log & rest & part & Hp & Hl & Hf & Hpart).
    exists log, rest, (map (batch (source_rows mc w all rows)) log), part. split; [exact Hp|]. split; [|split; [|split]].
    - clear - Hw Hl. induction Hl as [|d log Hd _ IH]; cbn [map]; constructor; [now apply batch_table|exact IH].
    - clear - Hl. induction Hl as [|d log Hd _ IH]; cbn [map]; constructor; assumption.
    - rewrite map_map. exact Hf.
    - destruct Hpart as [->|(d & more & Hi & Hb & E)]; [now left|]. right. exists d, (batch (source_rows mc w all rows) d), more. split; [exact Hi|]. split; [now apply batch_table|]. auto.
  Qed.
  Lemma no_deadlock : forall head sources n p, psteps (source_rows mc w all rows) enc false n (at_start head sources) p ->
    all_done p \/ (exists d, In d sources /\ In (d, WPanic) (po_work p) /\ source_rows mc w all rows d = Panic) \/ exists q, pstep (source_rows mc w all rows) enc false p q.
  Proof.
    intros head sources n p Hs. destruct (can_step (source_rows mc w all rows) enc head sources n p) as [K|[[d K]|K]]; auto.
    - intros d e _. exact (source_rows_no_err A mc w all rows Hw d e).
    - right. left. exists d. destruct (inv_steps _ _ _ _ _ _ _ Hs (inv_start _ _ head sources)) as (Hf & Ha & _). rewrite Forall_forall in Ha.
      split; [rewrite <- Hf; apply in_map_iff; exists (d, WPanic); auto|]. split; [exact K|]. exact (Ha _ K).
  Qed.
  Lemma bounded : forall faulty head sources n p, psteps (source_rows mc w all rows) enc faulty n (at_start head sources) p ->
    (n <= fold_right (fun d s => 3 + length (bytes_of (source_rows mc w all rows) enc d) + s) 0 sources)%nat.
  Proof. intros faulty head sources n p Hs. apply steps_bounded in Hs. rewrite left_start in Hs. lia. Qed.
End Tables.

(** C91.  However the threads are scheduled: when all sources are done the file is
    what a run over the sources one after the other writes, in some order of the
    sources, a batch never interrupted by another ... *)
Theorem C91_file : forall A mc w all (rows : Z -> item -> list A) enc head sources n p, world_bytes w ->
  psteps (source_rows mc w all rows) enc false n (at_start head sources) p -> all_done p ->
  exists order per, Permutation sources order /\ Forall2 (source_table mc w all rows) order per /\
    po_file p = head ++ concat (map enc (filter has_rows per)) /\
    total_records p = fold_right Z.add 0 (map (fun b => Z.of_nat (length b)) (filter has_rows per)).
Proof. intros A mc w all rows enc head sources n p Hw. exact (ended_file mc w all rows enc Hw head sources n p). Qed.
Print Assumptions C91_file.
(** ... and the batches are those of the model of C89 for that order. *)
Theorem C91_batches : forall A mc w all (rows : Z -> item -> list A) enc head sources n p,
  psteps (source_rows mc w all rows) enc false n (at_start head sources) p -> all_done p ->
  exists order, Permutation sources order /\ fst (batches (source_rows mc w all rows) order) = Ok tt /\
    po_file p = head ++ concat (map enc (snd (batches (source_rows mc w all rows) order))).
Proof. intros A mc w all rows enc head sources n p Hs Hd. destruct (all_written _ _ _ _ _ _ Hs Hd) as (order & H1 & H2 & H3 & _). exists order. auto. Qed.
Print Assumptions C91_batches.
(** At any moment, so also when the program is killed, the file is some whole
    batches of different sources and the beginning of one more. *)
Theorem C91_interrupted : forall A mc w all (rows : Z -> item -> list A) enc head sources n p, world_bytes w ->
  psteps (source_rows mc w all rows) enc false n (at_start head sources) p ->
  exists before rest per part, Permutation sources (before ++ rest) /\ Forall2 (source_table mc w all rows) before per /\ Forall (fun b => b <> []) per /\
    po_file p = head ++ concat (map enc per) ++ part /\
    (part = [] \/ exists d b more, In d rest /\ source_table mc w all rows d b /\ b <> [] /\ enc b = part ++ more).
Proof. intros A mc w all rows enc head sources n p Hw. exact (interrupted_file mc w all rows enc head sources n p). Qed.
Print Assumptions C91_interrupted.
(** No schedule deadlocks: until all is done some thread can go on, unless a
    source made a thread panic. *)
Theorem C91_no_deadlock : forall A mc w all (rows : Z -> item -> list A) enc head sources n p, world_bytes w ->
  psteps (source_rows mc w all rows) enc false n (at_start head sources) p ->
  all_done p \/ (exists d, In d sources /\ In (d, WPanic) (po_work p) /\ source_rows mc w all rows d = Panic) \/ exists q, pstep (source_rows mc w all rows) enc false p q.
Proof. intros A mc w all rows enc head sources n p Hw. exact (no_deadlock mc w all rows enc Hw head sources n p). Qed.
Print Assumptions C91_no_deadlock.
(** No schedule goes on for ever: three steps and one for every byte are enough
    for a source. *)
Theorem C91_ends : forall A mc w all (rows : Z -> item -> list A) enc faulty head sources n p,
  psteps (source_rows mc w all rows) enc faulty n (at_start head sources) p ->
  (n <= fold_right (fun d s => 3 + length match source_rows mc w all rows d with Ok (Some []) => [] | Ok (Some b) => enc b | _ => [] end + s) 0 sources)%nat.
Proof.
  intros A mc w all rows enc faulty head sources n p Hs. apply bounded in Hs. eapply Nat.le_trans; [exact Hs|]. clear. induction sources as [|d l IH]; [apply le_n|]. cbn [fold_right].
  unfold bytes_of at 1, batch. destruct (source_rows mc w all rows d) as [[[|x b]|]|e|]; cbn [length]; lia.
Qed.
Print Assumptions C91_ends.
(** And every order is that of some schedule, if no source panics: C89 does not
    consider more runs than there are. *)
Theorem C91_every_order : forall A mc w all (rows : Z -> item -> list A) enc head sources order,
  fst (batches (source_rows mc w all rows) order) = Ok tt -> Permutation sources order ->
  exists n p, psteps (source_rows mc w all rows) enc false n (at_start head sources) p /\ all_done p /\
    po_file p = head ++ concat (map enc (snd (batches (source_rows mc w all rows) order))).
Proof. intros A mc w all rows enc head sources order Hb Hp. exact (any_order_runs _ _ _ _ _ _ Hb Hp). Qed.
Print Assumptions C91_every_order.
(** Two replays with an upgrade each, the second before the first: the bytes (the
    number of rows and a zero for each) of both. *)
Definition simple (l : list upgrade_row) : list Z := Z.of_nat (length l) :: map (fun _ => 0) l.
Definition two_upgrades := source_rows ex_mc (a_world all_good) a_balance upgrades_of_item.
Definition an_upgrade (id : Z) : list upgrade_row := [mk_upgrade_row 1 "Stimpack" 1 5 0 id].
Lemma upgrades_are : exists d1 d2, good_sources = [d1; d2] /\ two_upgrades d1 = Ok (Some (an_upgrade 0)) /\ two_upgrades d2 = Ok (Some (an_upgrade 2)).
Proof. eexists. eexists. split; [reflexivity|]. split; vm_compute; reflexivity. Qed.
Example C91_example : world_bytes (a_world all_good) /\ exists n p n' p',
  choose_sources (mc_build ex_mc) three_files (a_world all_good) ["r"] any_props = Ok good_sources /\ length good_sources = 2%nat /\
  psteps two_upgrades simple false n (at_start [7; 7] good_sources) p /\ all_done p /\ po_file p = [7; 7; 1; 0; 1; 0] /\
  psteps two_upgrades simple false n' (at_start [7; 7] good_sources) p' /\ po_file p' = [7; 7; 1; 0; 1].
Proof.
  split; [exact good_world|]. destruct upgrades_are as (d1 & d2 & E & E1 & E2).
  assert (Hb : batches two_upgrades [d2; d1] = (Ok tt, [an_upgrade 2; an_upgrade 0])) by (cbn [batches]; rewrite E1, E2; reflexivity).
  assert (Hc : batches two_upgrades [d1] = (Ok tt, [an_upgrade 0])) by (cbn [batches]; rewrite E1; reflexivity).
  assert (Hp : Permutation good_sources [d2; d1]) by (rewrite E; apply perm_swap).
  destruct (any_order_runs two_upgrades simple false [7; 7] good_sources [d2; d1]) as (n & p & Hs & Hd & Hf); [now rewrite Hb|exact Hp|]. rewrite Hb in Hf.
  destruct (run_one two_upgrades simple false [] d1 [(d2, WStart)] [7; 7] _ E1) as (n1 & m & Hr).
  assert (Eb : bytes_of two_upgrades simple d1 = [1; 0]) by (unfold bytes_of, batch; rewrite E1; reflexivity). rewrite Eb in Hr.
  exists n, p, (n1 + 3)%nat. eexists. split; [vm_compute; reflexivity|]. split; [reflexivity|]. split; [exact Hs|]. split; [exact Hd|]. split; [exact Hf|]. split.
  - rewrite E. eapply psteps_trans; [exact Hr|].
    econstructor; [apply (s_rows two_upgrades simple false [(d1, WDone m)] d2 []) with (b := an_upgrade 2); [exact E2|discriminate]|].
    econstructor; [apply (s_lock two_upgrades simple false [(d1, WDone m)] d2 [])|].
    econstructor; [apply (s_write two_upgrades simple false [(d1, WDone m)] d2 [])|]. constructor.
  - reflexivity.
Qed.

(** C92.  False that an export which succeeds has written every row: if writing a
    batch fails, the failure is logged, the batch is left unfinished and the rest
    goes on. *)
Theorem C92_failures_refuted : exists n p d1 d2, good_sources = [d1; d2] /\
  psteps two_upgrades simple true n (at_start [7; 7] good_sources) p /\ all_done p /\
  two_upgrades d1 = Ok (Some (an_upgrade 0)) /\ two_upgrades d2 = Ok (Some (an_upgrade 2)) /\
  po_file p = [7; 7; 1; 1; 0] /\ total_records p = 1.
Proof.
  destruct upgrades_are as (d1 & d2 & E & E1 & E2). eexists. eexists. exists d1, d2. split; [exact E|]. split; [rewrite E|].
  - econstructor; [apply (s_rows two_upgrades simple true [] d1 [(d2, WStart)]) with (b := an_upgrade 0); [exact E1|discriminate]|].
    econstructor; [apply (s_lock two_upgrades simple true [] d1 [(d2, WStart)])|].
    econstructor; [apply (s_write two_upgrades simple true [] d1 [(d2, WStart)])|].
    econstructor; [apply (s_fail two_upgrades simple true [] d1 [(d2, WStart)]); reflexivity|].
    econstructor; [apply (s_rows two_upgrades simple true [(d1, WDone None)] d2 []) with (b := an_upgrade 2); [exact E2|discriminate]|].
    econstructor; [apply (s_lock two_upgrades simple true [(d1, WDone None)] d2 [])|].
    econstructor; [apply (s_write two_upgrades simple true [(d1, WDone None)] d2 [])|].
    econstructor; [apply (s_write two_upgrades simple true [(d1, WDone None)] d2 [])|].
    econstructor; [apply (s_done two_upgrades simple true [(d1, WDone None)] d2 [])|]. constructor.
  - split; [repeat constructor; eexists; reflexivity|]. split; [exact E1|]. split; [exact E2|]. split; reflexivity.
Qed.
Print Assumptions C92_failures_refuted.
(** What is in the file then: for every source, in some order, its batch, or a
    proper beginning of it; the number of records logged counts the former. *)
Theorem C92_failures_partial : forall A mc w all (rows : Z -> item -> list A) enc head sources n p,
  psteps (source_rows mc w all rows) enc true n (at_start head sources) p -> all_done p ->
  exists order (parts : list (list Z * Z)), Permutation sources order /\
    Forall2 (fun d x =>
      let b := match source_rows mc w all rows d with Ok (Some b) => b | _ => [] end in
      (b = [] /\ x = ([], 0)) \/ (b <> [] /\ x = (enc b, Z.of_nat (length b))) \/
      (b <> [] /\ snd x = 0 /\ exists more, more <> [] /\ enc b = fst x ++ more)) order parts /\
    po_file p = head ++ concat (map fst parts) /\ total_records p = fold_right Z.add 0 (map snd parts).
Proof.
  intros A mc w all rows enc head sources n p Hs Hd. destruct (faulty_end _ _ _ _ _ _ _ Hs Hd) as (log & segs & Hp & F & Hf & Ht).
  exists (map fst log), (combine segs (map (fun x => count_of (snd x)) log)). split; [exact Hp|]. clear Hp Hs Hd.
  assert (G : Forall2 (fun d x =>
      let b := match source_rows mc w all rows d with Ok (Some b) => b | _ => [] end in
      (b = [] /\ x = ([], 0)) \/ (b <> [] /\ x = (enc b, Z.of_nat (length b))) \/
      (b <> [] /\ snd x = 0 /\ exists more, more <> [] /\ enc b = fst x ++ more)) (map fst log) (combine segs (map (fun x => count_of (snd x)) log)) /\
    concat (map fst (combine segs (map (fun x => count_of (snd x)) log))) = concat segs /\
    fold_right Z.add 0 (map snd (combine segs (map (fun x => count_of (snd x)) log))) = fold_right Z.add 0 (map (fun x => count_of (snd x)) log)).
  { clear Hf Ht. induction F as [|[d m] s log segs Hx _ (I1 & I2 & I3)]; [repeat split; constructor|]. cbn [map combine fst snd concat fold_right]. split; [|split; [now rewrite I2|now rewrite I3]].
    constructor; [|exact I1]. cbv zeta. fold (batch (source_rows mc w all rows) d). unfold left_in_file in Hx. cbn [fst snd] in *. destruct m as [n'|]; cbn [count_of].
    - destruct Hx as (Hb & -> & ->). right. left. auto.
    - destruct Hx as [[Hb ->]|[Hb K]]; [left; auto|right; right; auto]. }
  destruct G as (G1 & G2 & G3). split; [exact G1|]. rewrite G2, G3. auto.
Qed.
Print Assumptions C92_failures_partial.
(** So if as many records are logged as the sources have, nothing is missing. *)
Theorem C92_counted_partial : forall A mc w all (rows : Z -> item -> list A) enc head sources n p, world_bytes w ->
  psteps (source_rows mc w all rows) enc true n (at_start head sources) p -> all_done p ->
  exists per, Forall2 (source_table mc w all rows) sources per /\
    total_records p <= fold_right Z.add 0 (map (fun b => Z.of_nat (length b)) per) /\
    (total_records p = fold_right Z.add 0 (map (fun b => Z.of_nat (length b)) per) ->
     exists order per', Permutation sources order /\ Forall2 (source_table mc w all rows) order per' /\ po_file p = head ++ concat (map enc (filter has_rows per'))).
Proof.
  intros A mc w all rows enc head sources n p Hw Hs Hd. pose proof (done_readable _ _ _ _ _ _ _ Hs Hd) as Hr.
  set (bt := batch (source_rows mc w all rows)).
  assert (Hb : forall l, Forall (fun d => exists o, source_rows mc w all rows d = Ok o) l -> Forall2 (source_table mc w all rows) l (map bt l)).
  { intros l F. induction F as [|d l (o & E) _ IH]; cbn [map]; constructor; [|exact IH]. pose proof (source_rows_ok A mc w all rows d o E) as K. unfold bt, batch. rewrite E. destruct o; exact K. }
  exists (map bt sources). split; [now apply Hb|]. rewrite map_map. split.
  - destruct (faulty_end _ _ _ _ _ _ _ Hs Hd) as (log & segs & Hp & F & _ & Ht). rewrite Ht. destruct (full_count _ _ _ _ F) as [K _].
    rewrite (sum_permutation _ _ (Permutation_map (fun d => Z.of_nat (length (bt d))) Hp)). exact K.
  - intros Ht. destruct (counted_all _ _ _ _ _ _ _ Hs Hd Ht) as (order & Hp & Hf). exists order, (map bt order). split; [exact Hp|].
    assert (Hr' : Forall (fun d => exists o, source_rows mc w all rows d = Ok o) order) by (rewrite Forall_forall in *; intros d Hi; apply Hr; eapply Permutation_in; [symmetry; exact Hp|exact Hi]).
    split; [now apply Hb|]. rewrite Hf. f_equal. clear. induction order as [|d l IH]; [reflexivity|]. cbn [map concat filter]. rewrite IH. unfold bytes_of at 1. fold bt. change (batch (source_rows mc w all rows) d) with (bt d).
    destruct (bt d) as [|x b]; reflexivity.
Qed.
Print Assumptions C92_counted_partial.
Example C92_example : exists n p, world_bytes (a_world all_good) /\ psteps two_upgrades simple true n (at_start [7; 7] good_sources) p /\ all_done p /\ total_records p = 1 /\ length (po_file p) = 5%nat.
Proof.
  destruct C92_failures_refuted as (n & p & d1 & d2 & _ & Hs & Hd & _ & _ & Hf & Ht). exists n, p. rewrite Hf. split; [exact good_world|]. auto.
Qed.
