(** * Facts about workers that share a writer *)
From Coq Require Import Permutation.
From Verif Require Import Base Types DetailsData Archive ArchiveSpec SnapshotFacts Writers.
#[local] Open Scope Z_scope.
#[local] Open Scope list_scope.

Section Facts.
  Context {A : Type}.
  Variable rows_of : full_init -> outcome (option (list A)).
  Variable enc : list A -> list Z.
  Notation D := full_init.
  Definition batch (d : D) : list A := match rows_of d with Ok (Some b) => b | _ => [] end.
  Definition bytes_of (d : D) : list Z := match batch d with [] => [] | b => enc b end.
  Definition written (l : list (D * work A)) : list D := flat_map (fun x => match snd x with WDone (Some _) => [fst x] | _ => [] end) l.
  Definition idle (l : list (D * work A)) : list D := flat_map (fun x => match snd x with WDone None => [fst x] | _ => [] end) l.
  Definition writers (l : list (D * work A)) : list (D * list A * list Z) := flat_map (fun x => match snd x with WWrite b rest => [(fst x, b, rest)] | _ => [] end) l.
  Definition agrees (x : D * work A) : Prop :=
    match snd x with
    | WStart => True
    | WWait b | WWrite b _ => rows_of (fst x) = Ok (Some b) /\ b <> []
    | WDone (Some n) => batch (fst x) <> [] /\ n = Z.of_nat (length (batch (fst x)))
    | WDone None => exists o, rows_of (fst x) = Ok o /\ (o = None \/ o = Some [])
    | WPanic => rows_of (fst x) = Panic
    end.
  (** The file is [head], the batches of [log], and what the writer has written. *)
  Definition inv (head : list Z) (sources : list D) (p : pool D A) : Prop :=
    map fst (po_work p) = sources /\ Forall agrees (po_work p) /\ exists log,
      Permutation log (written (po_work p)) /\
      match writers (po_work p) with
      | [] => po_locked p = false /\ po_file p = head ++ concat (map bytes_of log)
      | [(d, b, rest)] => po_locked p = true /\ exists pre, enc b = pre ++ rest /\ po_file p = head ++ concat (map bytes_of log) ++ pre
      | _ => False
      end.
  Lemma inv_start : forall head sources, inv head sources (at_start head sources).
  Proof.
    intros head sources. unfold at_start. split; [|split]; cbn [po_work po_locked po_file].
    - rewrite map_map. apply map_id.
    - apply Forall_forall. intros x Hx. apply in_map_iff in Hx as (d & <- & _). exact Logic.I.
    - assert (E : written (map (fun d => (d, @WStart A) : D * work A) sources) = [] /\ writers (map (fun d => (d, @WStart A) : D * work A) sources) = []).
      { split; induction sources as [|d l IH]; [reflexivity|exact IH|reflexivity|exact IH]. }
      destruct E as [E1 E2]. rewrite E1, E2. exists []. split; [constructor|]. split; [reflexivity|]. cbn [map concat]. now rewrite app_nil_r.
  Qed.
  Lemma agrees_at : forall l1 x l2, Forall agrees (l1 ++ x :: l2) <-> agrees x /\ Forall agrees (l1 ++ l2).
  Proof. intros. rewrite !Forall_app. split; [intros [H1 H2]; inversion H2; tauto|]. intros (H1 & H2 & H3). split; [assumption|now constructor]. Qed.
  Lemma written_app : forall a b, written (a ++ b) = written a ++ written b. Proof. intros. apply flat_map_app. Qed.
  Lemma writers_app : forall a b, writers (a ++ b) = writers a ++ writers b. Proof. intros. apply flat_map_app. Qed.
  Lemma idle_app : forall a b, idle (a ++ b) = idle a ++ idle b. Proof. intros. apply flat_map_app. Qed.
  Lemma fst_at : forall l1 (d : D) (w : work A) l2, map fst (l1 ++ (d, w) :: l2) = map fst l1 ++ d :: map fst l2.
  Proof. intros. rewrite map_app. reflexivity. Qed.
  Lemma one_writer : forall a (d : D) (b : list A) (rest : list Z) c, (match a ++ (d, b, rest) :: c with [] => False | [_] => True | _ => False end : Prop) -> a = [] /\ c = [].
  Proof. intros [|x a] d b rest c; cbn [app]; [destruct c; [auto|contradiction]|]. destruct a; contradiction. Qed.
  Lemma inv_step : forall head sources p q, pstep rows_of enc false p q -> inv head sources p -> inv head sources q.
  Proof.
    intros head sources p q Hs (Hf & Ha & log & Hl & Hw).
    destruct Hs as [l1 d l2 k f b Er Hb|l1 d l2 k f o Er Ho|l1 d l2 k f Er|l1 d l2 f b|l1 d l2 f b x rest|l1 d l2 f b|l1 d l2 f b x rest Ht]; [| | | | | |discriminate];
      cbn [po_work po_locked po_file] in *; rewrite fst_at in Hf; apply agrees_at in Ha as [Hx Ha]; rewrite written_app in Hl; cbn [written flat_map snd fst app] in Hl; fold (written l2) in Hl;
      rewrite writers_app in Hw; cbn [writers flat_map snd fst app] in Hw; fold (writers l2) in Hw; unfold inv; cbn [po_work po_locked po_file];
      (split; [now rewrite fst_at|]).
    - split; [apply agrees_at; split; [split; assumption|exact Ha]|]. exists log. rewrite written_app, writers_app. cbn [written writers flat_map snd fst app]. auto.
    - split; [apply agrees_at; split; [exists o; auto|exact Ha]|]. exists log. rewrite written_app, writers_app. cbn [written writers flat_map snd fst app]. auto.
    - split; [apply agrees_at; split; [exact Er|exact Ha]|]. exists log. rewrite written_app, writers_app. cbn [written writers flat_map snd fst app]. auto.
    - split; [apply agrees_at; split; [exact Hx|exact Ha]|]. exists log. rewrite written_app, writers_app. cbn [written writers flat_map snd fst app]. fold (written l2) (writers l2).
      split; [exact Hl|]. destruct (writers l1 ++ writers l2) as [|[[d' b'] r'] [|? ?]] eqn:Ew; [|destruct Hw; discriminate|contradiction].
      apply app_eq_nil in Ew as [E1 E2]. rewrite E1, E2. cbn [app]. split; [reflexivity|]. exists []. split; [reflexivity|]. rewrite app_nil_r. tauto.
    - split; [apply agrees_at; split; [exact Hx|exact Ha]|]. exists log. rewrite written_app, writers_app. cbn [written writers flat_map snd fst app]. fold (written l2) (writers l2).
      split; [exact Hl|]. assert (Q : writers l1 = [] /\ writers l2 = []).
      { apply (one_writer (writers l1) d b (x :: rest) (writers l2)). destruct (writers l1 ++ (d, b, x :: rest) :: writers l2) as [|[[d' b'] r'] [|? ?]] eqn:Ew; [destruct (writers l1); discriminate|exact Logic.I|contradiction]. }
      destruct Q as [E1 E2]. rewrite E1, E2 in *. cbn [app] in *. destruct Hw as (_ & pre & E & ->). split; [reflexivity|]. exists (pre ++ [x]). split; [rewrite E, <- app_assoc; reflexivity|]. now rewrite !app_assoc.
    - destruct Hx as [Hr Hb]. assert (Eb : batch d = b) by (unfold batch; cbn [fst] in Hr; now rewrite Hr).
      split; [apply agrees_at; split; [cbn; rewrite Eb; auto|exact Ha]|]. exists (log ++ [d]). rewrite written_app, writers_app. cbn [written writers flat_map snd fst app]. fold (written l2) (writers l2). split.
      + eapply perm_trans; [apply Permutation_app_comm|]. cbn [app]. eapply perm_trans; [constructor; exact Hl|]. apply Permutation_middle.
      + assert (Q : writers l1 = [] /\ writers l2 = []).
        { apply (one_writer (writers l1) d b [] (writers l2)). destruct (writers l1 ++ (d, b, []) :: writers l2) as [|[[d' b'] r'] [|? ?]] eqn:Ew; [destruct (writers l1); discriminate|exact Logic.I|contradiction]. }
        destruct Q as [E1 E2]. rewrite E1, E2 in *. cbn [app] in *. destruct Hw as (_ & pre & E & ->). split; [reflexivity|]. rewrite map_app, concat_app. cbn [map concat]. rewrite app_nil_r in E |- *. subst pre. do 2 f_equal.
        unfold bytes_of. rewrite Eb. destruct b; [congruence|reflexivity].
  Qed.
  Lemma inv_steps : forall head sources n p q, psteps rows_of enc false n p q -> inv head sources p -> inv head sources q.
  Proof. intros head sources n p q Hs. induction Hs as [|n p q r H1 _ IH]; intros Hi; [exact Hi|]. apply IH. eapply inv_step; eauto. Qed.
  (** The batches of a list in which those with rows come first. *)
  Lemma batches_of : forall log rest, Forall (fun d => batch d <> []) log -> Forall (fun d => exists o, rows_of d = Ok o /\ (o = None \/ o = Some [])) rest ->
    batches rows_of (log ++ rest) = (Ok tt, map batch log).
  Proof.
    intros log rest Hl Hr. induction Hl as [|d log Hd _ IH]; cbn [app].
    - induction Hr as [|d rest (o & Eo & Ho) _ IH]; [reflexivity|]. cbn [batches]. rewrite Eo. destruct Ho as [-> | ->]; exact IH.
    - cbn [batches map]. unfold batch in Hd |- *. destruct (rows_of d) as [[[|r b]|]|e|]; try congruence. rewrite IH. reflexivity.
  Qed.
  Lemma work_split : forall l, Forall (fun x : D * work A => exists n, snd x = WDone n) l -> Permutation (map fst l) (written l ++ idle l).
  Proof.
    intros l F. induction F as [|[d w] l (n & E) _ IH]; [constructor|]. cbn [snd] in E. subst w. cbn [map fst written idle flat_map snd]. fold (written l) (idle l). destruct n as [n|]; cbn [app].
    - now constructor.
    - eapply perm_trans; [constructor; exact IH|]. apply Permutation_middle.
  Qed.
  Lemma written_rows : forall l, Forall agrees l -> Forall (fun d => batch d <> []) (written l) /\ Forall (fun d => exists o, rows_of d = Ok o /\ (o = None \/ o = Some [])) (idle l).
  Proof.
    intros l F. induction F as [|[d w] l Hx _ [I1 I2]]; [split; constructor|]. cbn [written idle flat_map snd fst]. fold (written l) (idle l). destruct w as [| | |[n|]|]; cbn [app]; auto.
    - destruct Hx. auto.
  Qed.
  Lemma sum_rows : forall l, Forall agrees l -> fold_right (fun (x : D * work A) s => match snd x with WDone (Some n) => n + s | _ => s end) 0 l = fold_right Z.add 0 (map (fun d => Z.of_nat (length (batch d))) (written l)).
  Proof.
    intros l F. induction F as [|[d w] l Hx _ IH]; [reflexivity|]. cbn [fold_right written flat_map snd fst]. fold (written l). destruct w as [| | |[n|]|]; cbn [app map fold_right]; rewrite IH; try reflexivity. cbn in Hx. lia.
  Qed.
  Lemma sum_permutation : forall l l', Permutation l l' -> fold_right Z.add 0 l = fold_right Z.add 0 l'.
  Proof. induction 1; cbn [fold_right]; lia. Qed.
  Lemma all_written : forall head sources n p, psteps rows_of enc false n (at_start head sources) p -> all_done p ->
    exists order, Permutation sources order /\ fst (batches rows_of order) = Ok tt /\
      po_file p = head ++ concat (map enc (snd (batches rows_of order))) /\
      total_records p = fold_right Z.add 0 (map (fun b => Z.of_nat (length b)) (snd (batches rows_of order))).
  Proof.
    intros head sources n p Hs Hd. destruct (inv_steps _ _ _ _ _ Hs (inv_start head sources)) as (Hf & Ha & log & Hl & Hw).
    assert (Ew : writers (po_work p) = []). { unfold all_done in Hd. clear - Hd. induction Hd as [|[d w] l (n & E) _ IH]; [reflexivity|]. cbn [snd] in E. subst w. exact IH. }
    rewrite Ew in Hw. destruct Hw as [_ Hw]. destruct (written_rows _ Ha) as [R1 R2].
    assert (R1' : Forall (fun d => batch d <> []) log) by (rewrite Forall_forall in *; intros d Hi; apply R1; eapply Permutation_in; eassumption).
    exists (log ++ idle (po_work p)). split; [|rewrite (batches_of _ _ R1' R2); cbn [fst snd]; split; [reflexivity|]; split].
    - rewrite <- Hf. eapply perm_trans; [apply work_split; exact Hd|]. now apply Permutation_app_tail, Permutation_sym.
    - rewrite Hw, map_map. do 2 f_equal. apply map_ext_in. intros d Hi. unfold bytes_of. rewrite Forall_forall in R1'. specialize (R1' d Hi). destruct (batch d); [congruence|reflexivity].
    - unfold total_records. rewrite (sum_rows _ Ha), map_map. apply sum_permutation. apply Permutation_map. now symmetry.
  Qed.
  Definition others (l : list (D * work A)) : list D := flat_map (fun x => match snd x with WDone (Some _) => [] | _ => [fst x] end) l.
  Lemma others_split : forall l, Permutation (map fst l) (written l ++ others l).
  Proof.
    intros l. induction l as [|[d w] l IH]; [constructor|]. cbn [map fst written others flat_map snd]. fold (written l) (others l).
    destruct w as [| | |[n|]|]; cbn [app]; try (eapply perm_trans; [constructor; exact IH|apply Permutation_middle]). now constructor.
  Qed.
  Lemma writer_in : forall l d b rest, In (d, b, rest) (writers l) -> In (d, WWrite b rest) l /\ In d (others l).
  Proof.
    intros l d b rest Hi. unfold writers in Hi. apply in_flat_map in Hi as ([d' w] & Hi & Hd). cbn [snd fst] in Hd.
    destruct w as [| | |[m|]|]; cbn [In] in Hd; try contradiction. destruct Hd as [Hd|[]]. injection Hd as -> -> ->. split; [exact Hi|].
    apply in_flat_map. exists (d, WWrite b rest). split; [exact Hi|now left].
  Qed.
  (** In every state the file is whole batches and the beginning of one. *)
  Lemma never_torn : forall head sources n p, psteps rows_of enc false n (at_start head sources) p ->
    exists log rest part, Permutation sources (log ++ rest) /\ Forall (fun d => batch d <> []) log /\ po_file p = head ++ concat (map (fun d => enc (batch d)) log) ++ part /\
      (part = [] \/ exists d more, In d rest /\ batch d <> [] /\ enc (batch d) = part ++ more).
  Proof.
    intros head sources n p Hs. destruct (inv_steps _ _ _ _ _ Hs (inv_start head sources)) as (Hf & Ha & log & Hl & Hw). destruct (written_rows _ Ha) as [R1 R2].
    assert (R1' : Forall (fun d => batch d <> []) log) by (rewrite Forall_forall in *; intros d Hi; apply R1; eapply Permutation_in; eassumption).
    assert (E : map bytes_of log = map (fun d => enc (batch d)) log).
    { apply map_ext_in. intros d Hi. unfold bytes_of. rewrite Forall_forall in R1'. specialize (R1' d Hi). destruct (batch d); [congruence|reflexivity]. }
    assert (P : Permutation sources (log ++ others (po_work p))).
    { rewrite <- Hf. eapply perm_trans; [apply others_split|]. now apply Permutation_app_tail, Permutation_sym. }
    rewrite E in Hw. destruct (writers (po_work p)) as [|[[d b] rest] [|? ?]] eqn:Ew; [| |contradiction].
    - exists log, (others (po_work p)), []. split; [exact P|]. split; [exact R1'|]. split; [rewrite app_nil_r; tauto|now left].
    - destruct Hw as (_ & pre & Eb & Ef). exists log, (others (po_work p)), pre. split; [exact P|]. split; [exact R1'|]. split; [exact Ef|]. right. exists d, rest.
      destruct (writer_in (po_work p) d b rest) as [Hd Ho]; [rewrite Ew; now left|].
      rewrite Forall_forall in Ha. destruct (Ha _ Hd) as [Hr Hb]. cbn [fst] in Hr. assert (Ebd : batch d = b) by (unfold batch; now rewrite Hr). rewrite Ebd. auto.
  Qed.
  (** Nothing waits for ever. *)
  Lemma done_or_not : forall l : list (D * work A), Forall (fun x => exists n, snd x = WDone n) l \/ exists l1 d w l2, l = l1 ++ (d, w) :: l2 /\ forall n, w <> WDone n.
  Proof.
    induction l as [|[d w] l IH]; [left; constructor|].
    assert (K : (exists n, w = WDone n) \/ forall n, w <> WDone n) by (destruct w as [| | |n|]; [right; discriminate..|left; eauto|right; discriminate]).
    destruct K as [K|K]; [|right; exists [], d, w, l; auto].
    destruct IH as [IH|(l1 & d' & w' & l2 & -> & Hw)]; [left; constructor; auto|]. right. exists ((d, w) :: l1), d', w', l2. auto.
  Qed.
  Lemma can_step : forall head sources n p, (forall d e, In d sources -> rows_of d <> Err e) -> psteps rows_of enc false n (at_start head sources) p ->
    all_done p \/ (exists d, In (d, WPanic) (po_work p)) \/ exists q, pstep rows_of enc false p q.
  Proof.
    intros head sources n p Hn Hs. destruct (inv_steps _ _ _ _ _ Hs (inv_start head sources)) as (Hf & Ha & log & _ & Hw). destruct p as [l k f]. cbn [po_work po_locked po_file] in *.
    destruct (writers l) as [|[[d b] rest] [|? ?]] eqn:Ew; [| |contradiction].
    - destruct Hw as [-> _]. destruct (done_or_not l) as [K|(l1 & d & w & l2 & -> & Hw)]; [left; exact K|]. right.
      destruct w as [|b|b rest|m|].
      + right. assert (Hd : In d sources) by (rewrite <- Hf, map_app; apply in_or_app; right; now left).
        destruct (rows_of d) as [[[|x b]|]|e|] eqn:Er.
        * eexists. apply s_none with (o := Some []); auto.
        * eexists. apply s_rows with (b := x :: b); [exact Er|discriminate].
        * eexists. apply s_none with (o := None); auto.
        * now destruct (Hn d e Hd).
        * eexists. now apply s_panic.
      + right. eexists. apply s_lock.
      + rewrite writers_app in Ew. apply app_eq_nil in Ew as [_ Ew]. discriminate.
      + now destruct (Hw m).
      + left. exists d. apply in_or_app. right. now left.
    - destruct Hw as [-> _]. right. right. destruct (writer_in l d b rest) as [Hi _]; [rewrite Ew; now left|]. apply in_split in Hi as (l1 & l2 & ->).
      destruct rest as [|x rest]; eexists; [apply s_done|apply s_write].
  Qed.
  (** Every step brings the end nearer. *)
  Definition left_of (x : D * work A) : nat :=
    match snd x with
    | WStart => 3 + length (bytes_of (fst x)) | WWait b => 2 + length (enc b) | WWrite _ rest => 1 + length rest | _ => 0
    end%nat.
  Definition left_all (l : list (D * work A)) : nat := fold_right (fun x s => (left_of x + s)%nat) O l.
  Lemma left_at : forall l1 x l2, left_all (l1 ++ x :: l2) = (left_of x + left_all (l1 ++ l2))%nat.
  Proof. induction l1 as [|y l1 IH]; intros x l2; cbn [app left_all fold_right]; [reflexivity|]. fold (left_all (l1 ++ x :: l2)) (left_all (l1 ++ l2)). rewrite IH. lia. Qed.
  Lemma step_nearer : forall faulty p q, pstep rows_of enc faulty p q -> (left_all (po_work q) < left_all (po_work p))%nat.
  Proof.
    intros faulty p q Hs. destruct Hs as [l1 d l2 k f b Er Hb|l1 d l2 k f o Er Ho|l1 d l2 k f Er|l1 d l2 f b|l1 d l2 f b x rest|l1 d l2 f b|l1 d l2 f b x rest Ht]; cbn [po_work]; rewrite !left_at; unfold left_of; cbn [snd fst length]; try lia.
    unfold bytes_of, batch. rewrite Er. destruct b; [congruence|]. lia.
  Qed.
  Lemma steps_bounded : forall faulty n p q, psteps rows_of enc faulty n p q -> (n + left_all (po_work q) <= left_all (po_work p))%nat.
  Proof. intros faulty n p q Hs. induction Hs as [p|n p q r H1 _ IH]; [lia|]. apply step_nearer in H1. lia. Qed.
  Lemma left_start : forall head sources, left_all (po_work (@at_start D A head sources)) = fold_right (fun d s => (3 + length (bytes_of d) + s)%nat) O sources.
  Proof. intros head sources. induction sources as [|d l IH]; [reflexivity|]. cbn [at_start po_work map left_all fold_right] in *. fold (left_all (map (fun d : D => (d, @WStart A)) l)). cbn [fold_right] in IH |- *. unfold left_of at 1. cbn [snd fst]. unfold left_all. unfold left_all in IH. rewrite IH. lia. Qed.
  (** Every order is that of some schedule. *)
  Lemma psteps_trans : forall faulty n m p q r, psteps rows_of enc faulty n p q -> psteps rows_of enc faulty m q r -> psteps rows_of enc faulty (n + m) p r.
  Proof. intros faulty n m p q r H1. revert m r. induction H1 as [|n p q s H1 _ IH]; intros m r H2; [exact H2|]. econstructor; [exact H1|]. now apply IH. Qed.
  Lemma write_out : forall faulty l1 d b l2 rest f, psteps rows_of enc faulty (length rest) (mk_pool (l1 ++ (d, WWrite b rest) :: l2) true f) (mk_pool (l1 ++ (d, WWrite b []) :: l2) true (f ++ rest)).
  Proof.
    intros faulty l1 d b l2 rest. induction rest as [|x rest IH]; intros f; [rewrite app_nil_r; constructor|]. cbn [length]. econstructor; [apply s_write|].
    replace (f ++ x :: rest) with ((f ++ [x]) ++ rest) by (rewrite <- app_assoc; reflexivity). apply IH.
  Qed.
  Lemma run_one : forall faulty l1 d l2 f o, rows_of d = Ok o ->
    exists n m, psteps rows_of enc faulty n (mk_pool (l1 ++ (d, WStart) :: l2) false f) (mk_pool (l1 ++ (d, WDone m) :: l2) false (f ++ bytes_of d)).
  Proof.
    intros faulty l1 d l2 f o Er. unfold bytes_of, batch. rewrite Er. destruct o as [[|x b]|].
    - exists 1%nat, None. rewrite app_nil_r. econstructor; [|constructor]. apply s_none with (o := Some []); auto.
    - exists (2 + (length (enc (x :: b)) + 1))%nat, (Some (Z.of_nat (length (x :: b)))). econstructor; [apply s_rows with (b := x :: b); [exact Er|discriminate]|].
      econstructor; [apply s_lock|]. eapply psteps_trans; [apply write_out|]. econstructor; [apply s_done|constructor].
    - exists 1%nat, None. rewrite app_nil_r. econstructor; [|constructor]. apply s_none with (o := None); auto.
  Qed.
  Definition pending (l : list (D * work A)) : list D := flat_map (fun x => match snd x with WStart => [fst x] | _ => [] end) l.
  Definition started_or_done (x : D * work A) : Prop := snd x = WStart \/ exists n, snd x = WDone n.
  Lemma run_all : forall faulty order l f, fst (batches rows_of order) = Ok tt -> Permutation (pending l) order -> Forall started_or_done l ->
    exists n p, psteps rows_of enc faulty n (mk_pool l false f) p /\ all_done p /\ po_file p = f ++ concat (map enc (snd (batches rows_of order))).
  Proof.
    intros faulty order. induction order as [|d order IH]; intros l f Hb Hp Hl.
    - exists O, (mk_pool l false f). split; [constructor|]. cbn [batches snd map concat po_file]. rewrite app_nil_r. split; [|reflexivity]. unfold all_done. cbn [po_work].
      apply Permutation_sym, Permutation_nil in Hp. clear Hb. induction Hl as [|[d w] l [E|E] _ IH]; [constructor| |].
      + cbn [snd] in E. subst w. discriminate.
      + constructor; [exact E|]. destruct E as [n E]. cbn [snd] in E. subst w. now apply IH.
    - assert (Hd : In d (pending l)) by (eapply Permutation_in; [symmetry; exact Hp|now left]). unfold pending in Hd. apply in_flat_map in Hd as ([d' w] & Hi & Hd).
      cbn [snd fst] in Hd. destruct w; cbn [In] in Hd; try contradiction. destruct Hd as [->|[]]. apply in_split in Hi as (l1 & l2 & ->).
      assert (E : exists o, rows_of d = Ok o) by (cbn [batches] in Hb; destruct (rows_of d) as [o| |]; [eauto|discriminate|discriminate]). destruct E as [o E].
      destruct (run_one faulty l1 d l2 f o E) as (n1 & m & S1).
      assert (Hb' : fst (batches rows_of order) = Ok tt). { cbn [batches] in Hb. rewrite E in Hb. destruct o as [[|x b]|]; [exact Hb| |exact Hb]. destruct (batches rows_of order). exact Hb. }
      assert (Hp' : Permutation (pending (l1 ++ (d, WDone m) :: l2)) order).
      { unfold pending in *. rewrite flat_map_app in Hp |- *. cbn [flat_map snd fst app] in *. apply Permutation_cons_inv with (a := d). eapply perm_trans; [|exact Hp]. apply Permutation_middle. }
      assert (Hl' : Forall started_or_done (l1 ++ (d, WDone m) :: l2)).
      { rewrite Forall_app in Hl |- *. destruct Hl as [H1 H2]. split; [exact H1|]. inversion H2; subst. constructor; [right; eexists; reflexivity|assumption]. }
      destruct (IH _ (f ++ bytes_of d) Hb' Hp' Hl') as (n2 & p & S2 & D2 & F2). exists (n1 + n2)%nat, p. split; [eapply psteps_trans; eassumption|]. split; [exact D2|]. rewrite F2.
      cbn [batches]. unfold bytes_of, batch. rewrite E. destruct o as [[|x b]|]; cbn [app]; rewrite ?app_nil_r; [reflexivity| |reflexivity].
      destruct (batches rows_of order) as [o' bs]. cbn [snd map concat]. now rewrite app_assoc.
  Qed.
  Lemma any_order_runs : forall faulty head sources order, fst (batches rows_of order) = Ok tt -> Permutation sources order ->
    exists n p, psteps rows_of enc faulty n (at_start head sources) p /\ all_done p /\ po_file p = head ++ concat (map enc (snd (batches rows_of order))).
  Proof.
    intros faulty head sources order Hb Hp. apply run_all; [exact Hb| |].
    - eapply perm_trans; [|exact Hp]. clear. induction sources as [|d l IH]; [constructor|]. cbn [map pending flat_map snd fst app]. now constructor.
    - apply Forall_forall. intros x Hx. apply in_map_iff in Hx as (d & <- & _). now left.
  Qed.

  (** ** When writing may fail *)
  Definition ended (l : list (D * work A)) : list (D * option Z) := flat_map (fun x => match snd x with WDone m => [(fst x, m)] | _ => [] end) l.
  (** What a source has left in the file: its batch, or, if writing it failed, less. *)
  Definition left_in_file (x : D * option Z) (seg : list Z) : Prop :=
    match snd x with
    | Some n => batch (fst x) <> [] /\ n = Z.of_nat (length (batch (fst x))) /\ seg = enc (batch (fst x))
    | None => (batch (fst x) = [] /\ seg = []) \/ (batch (fst x) <> [] /\ exists more, more <> [] /\ enc (batch (fst x)) = seg ++ more)
    end.
  Definition holds_rows (x : D * work A) : Prop := match snd x with WWait b | WWrite b _ => rows_of (fst x) = Ok (Some b) /\ b <> [] | _ => True end.
  Definition invf (head : list Z) (sources : list D) (p : pool D A) : Prop :=
    map fst (po_work p) = sources /\ Forall holds_rows (po_work p) /\ exists log segs,
      Permutation log (ended (po_work p)) /\ Forall2 left_in_file log segs /\
      match writers (po_work p) with
      | [] => po_locked p = false /\ po_file p = head ++ concat segs
      | [(d, b, rest)] => po_locked p = true /\ exists pre, enc b = pre ++ rest /\ po_file p = head ++ concat segs ++ pre
      | _ => False
      end.
  Lemma invf_start : forall head sources, invf head sources (at_start head sources).
  Proof.
    intros head sources. unfold at_start. split; [|split]; cbn [po_work po_locked po_file].
    - rewrite map_map. apply map_id.
    - apply Forall_forall. intros x Hx. apply in_map_iff in Hx as (d & <- & _). exact Logic.I.
    - assert (E : ended (map (fun d : D => (d, @WStart A)) sources) = [] /\ writers (map (fun d : D => (d, @WStart A)) sources) = []).
      { split; induction sources as [|d l IH]; [reflexivity|exact IH|reflexivity|exact IH]. }
      destruct E as [E1 E2]. rewrite E1, E2. exists [], []. split; [constructor|]. split; [constructor|]. split; [reflexivity|]. cbn [concat]. now rewrite app_nil_r.
  Qed.
  Lemma holds_at : forall l1 x l2, Forall holds_rows (l1 ++ x :: l2) <-> holds_rows x /\ Forall holds_rows (l1 ++ l2).
  Proof. intros. rewrite !Forall_app. split; [intros [H1 H2]; inversion H2; tauto|]. intros (H1 & H2 & H3). split; [assumption|now constructor]. Qed.
  Lemma ended_app : forall a b, ended (a ++ b) = ended a ++ ended b. Proof. intros. apply flat_map_app. Qed.
  Lemma only_writer : forall a (d : D) (b : list A) (rest : list Z) c (P : list Z -> Prop) (Q : D -> list A -> list Z -> Prop), 
    match a ++ (d, b, rest) :: c with [] => P [] | [(d', b', r')] => Q d' b' r' | _ => False end -> a = [] /\ c = [] /\ Q d b rest.
  Proof. intros [|x a] d b rest c P Q; cbn [app]; [destruct c; [auto|contradiction]|]. destruct a; destruct x as [[? ?] ?]; contradiction. Qed.
  Lemma one_more : forall (log : list (D * option Z)) e1 e2 x, Permutation log (e1 ++ e2) -> Permutation (log ++ [x]) (e1 ++ x :: e2).
  Proof. intros log e1 e2 x Hl. eapply perm_trans; [apply Permutation_app_comm|]. cbn [app]. eapply perm_trans; [constructor; exact Hl|]. apply Permutation_middle. Qed.
  Lemma seg_more : forall log segs x s, Forall2 left_in_file log segs -> left_in_file x s -> Forall2 left_in_file (log ++ [x]) (segs ++ [s]).
  Proof. intros. apply Forall2_app; [assumption|]. repeat constructor; assumption. Qed.
  Lemma invf_step : forall faulty head sources p q, pstep rows_of enc faulty p q -> invf head sources p -> invf head sources q.
  Proof.
    intros faulty head sources p q Hs (Hf & Ha & log & segs & Hl & Hg & Hw).
    destruct Hs as [l1 d l2 k f b Er Hb|l1 d l2 k f o Er Ho|l1 d l2 k f Er|l1 d l2 f b|l1 d l2 f b x rest|l1 d l2 f b|l1 d l2 f b x rest Ht];
      cbn [po_work po_locked po_file] in *; rewrite fst_at in Hf; apply holds_at in Ha as [Hx Ha]; rewrite ended_app in Hl; cbn [ended flat_map snd fst app] in Hl; fold (ended l2) in Hl;
      rewrite writers_app in Hw; cbn [writers flat_map snd fst app] in Hw; fold (writers l2) in Hw; unfold invf; cbn [po_work po_locked po_file];
      (split; [now rewrite fst_at|]).
    - split; [apply holds_at; split; [split; assumption|exact Ha]|]. exists log, segs. rewrite ended_app, writers_app. cbn [ended writers flat_map snd fst app]. auto.
    - split; [apply holds_at; split; [exact Logic.I|exact Ha]|]. exists (log ++ [(d, None)]), (segs ++ [[]]). rewrite ended_app, writers_app. cbn [ended writers flat_map snd fst app]. fold (ended l2) (writers l2).
      split; [now apply one_more|]. split; [apply seg_more; [exact Hg|]; left; unfold batch; cbn [fst]; rewrite Er; destruct Ho as [-> | ->]; auto|].
      rewrite concat_app. cbn [concat]. rewrite !app_nil_r. exact Hw.
    - split; [apply holds_at; split; [exact Logic.I|exact Ha]|]. exists log, segs. rewrite ended_app, writers_app. cbn [ended writers flat_map snd fst app]. auto.
    - split; [apply holds_at; split; [exact Hx|exact Ha]|]. exists log, segs. rewrite ended_app, writers_app. cbn [ended writers flat_map snd fst app]. fold (ended l2) (writers l2).
      split; [exact Hl|]. split; [exact Hg|]. destruct (writers l1 ++ writers l2) as [|[[d' b'] r'] [|? ?]] eqn:Ew; [|destruct Hw; discriminate|contradiction].
      apply app_eq_nil in Ew as [E1 E2]. rewrite E1, E2. cbn [app]. split; [reflexivity|]. exists []. split; [reflexivity|]. rewrite app_nil_r. tauto.
    - split; [apply holds_at; split; [exact Hx|exact Ha]|]. exists log, segs. rewrite ended_app, writers_app. cbn [ended writers flat_map snd fst app]. fold (ended l2) (writers l2).
      split; [exact Hl|]. split; [exact Hg|]. apply (only_writer _ _ _ _ _ (fun _ => _) (fun _ b rest => true = true /\ exists pre, enc b = pre ++ rest /\ f = head ++ concat segs ++ pre)) in Hw as (E1 & E2 & _ & pre & E & ->).
      rewrite E1, E2. cbn [app]. split; [reflexivity|]. exists (pre ++ [x]). split; [rewrite E, <- app_assoc; reflexivity|]. now rewrite !app_assoc.
    - destruct Hx as [Hr Hb]. assert (Eb : batch d = b) by (unfold batch; cbn [fst] in Hr; now rewrite Hr).
      split; [apply holds_at; split; [exact Logic.I|exact Ha]|]. apply (only_writer _ _ _ _ _ (fun _ => _) (fun _ b rest => true = true /\ exists pre, enc b = pre ++ rest /\ f = head ++ concat segs ++ pre)) in Hw as (E1 & E2 & _ & pre & E & ->).
      exists (log ++ [(d, Some (Z.of_nat (length b)))]), (segs ++ [enc b]). rewrite ended_app, writers_app. cbn [ended writers flat_map snd fst app]. fold (ended l2) (writers l2). rewrite E1, E2.
      split; [now apply one_more|]. split; [apply seg_more; [exact Hg|]; unfold left_in_file; cbn [fst snd]; rewrite Eb; auto|]. cbn [app]. split; [reflexivity|].
      rewrite concat_app. cbn [concat]. rewrite E, !app_nil_r. reflexivity.
    - destruct Hx as [Hr Hb]. assert (Eb : batch d = b) by (unfold batch; cbn [fst] in Hr; now rewrite Hr).
      split; [apply holds_at; split; [exact Logic.I|exact Ha]|]. apply (only_writer _ _ _ _ _ (fun _ => _) (fun _ b rest => true = true /\ exists pre, enc b = pre ++ rest /\ f = head ++ concat segs ++ pre)) in Hw as (E1 & E2 & _ & pre & E & ->).
      exists (log ++ [(d, None)]), (segs ++ [pre]). rewrite ended_app, writers_app. cbn [ended writers flat_map snd fst app]. fold (ended l2) (writers l2). rewrite E1, E2.
      split; [now apply one_more|]. split; [apply seg_more; [exact Hg|]; right; cbn [fst snd]; rewrite Eb; split; [exact Hb|]; exists (x :: rest); split; [discriminate|exact E]|]. cbn [app]. split; [reflexivity|].
      rewrite concat_app. cbn [concat]. rewrite !app_nil_r. reflexivity.
  Qed.
  Lemma invf_steps : forall faulty head sources n p q, psteps rows_of enc faulty n p q -> invf head sources p -> invf head sources q.
  Proof. intros faulty head sources n p q Hs. induction Hs as [|n p q r H1 _ IH]; intros Hi; [exact Hi|]. apply IH. eapply invf_step; eauto. Qed.
  Definition count_of (m : option Z) : Z := match m with Some n => n | None => 0 end.
  Lemma ended_done : forall l, Forall (fun x : D * work A => exists n, snd x = WDone n) l -> map fst (ended l) = map fst l /\
    fold_right (fun (x : D * work A) s => match snd x with WDone (Some n) => n + s | _ => s end) 0 l = fold_right Z.add 0 (map (fun x => count_of (snd x)) (ended l)) /\ writers l = [].
  Proof.
    intros l F. induction F as [|[d w] l (n & E) _ (I1 & I2 & I3)]; [auto|]. cbn [snd] in E. subst w. cbn [ended writers flat_map snd fst app map fold_right]. fold (ended l) (writers l).
    split; [now rewrite I1|]. split; [rewrite I2; destruct n; reflexivity|exact I3].
  Qed.
  Lemma faulty_end : forall faulty head sources n p, psteps rows_of enc faulty n (at_start head sources) p -> all_done p ->
    exists log segs, Permutation sources (map fst log) /\ Forall2 left_in_file log segs /\ po_file p = head ++ concat segs /\
      total_records p = fold_right Z.add 0 (map (fun x => count_of (snd x)) log).
  Proof.
    intros faulty head sources n p Hs Hd. destruct (invf_steps _ _ _ _ _ _ Hs (invf_start head sources)) as (Hf & _ & log & segs & Hl & Hg & Hw).
    destruct (ended_done _ Hd) as (E1 & E2 & E3). rewrite E3 in Hw. destruct Hw as [_ Hw]. exists log, segs. split; [|split; [exact Hg|split; [exact Hw|]]].
    - rewrite <- Hf, <- E1. apply Permutation_map. now symmetry.
    - unfold total_records. rewrite E2. apply sum_permutation, Permutation_map. now symmetry.
  Qed.
  (** If the count is that of all rows, nothing failed. *)
  Lemma seg_count : forall x s, left_in_file x s -> 0 <= count_of (snd x) <= Z.of_nat (length (batch (fst x))) /\ (count_of (snd x) = Z.of_nat (length (batch (fst x))) -> s = bytes_of (fst x)).
  Proof.
    intros [d [n|]] s H; unfold left_in_file in H; cbn [fst snd count_of] in *; unfold bytes_of.
    - destruct H as (Hb & -> & ->). split; [lia|]. intros _. destruct (batch d); [congruence|reflexivity].
    - split; [lia|]. destruct H as [[E ->]|[Hb _]]; [now rewrite E|]. destruct (batch d); [congruence|]. cbn [length]. lia.
  Qed.
  Lemma full_count : forall log segs, Forall2 left_in_file log segs ->
    fold_right Z.add 0 (map (fun x => count_of (snd x)) log) <= fold_right Z.add 0 (map (fun d => Z.of_nat (length (batch d))) (map fst log)) /\
    (fold_right Z.add 0 (map (fun x => count_of (snd x)) log) = fold_right Z.add 0 (map (fun d => Z.of_nat (length (batch d))) (map fst log)) -> segs = map bytes_of (map fst log)).
  Proof.
    intros log segs F. induction F as [|x s log segs Hx _ (I1 & I2)]; [cbn; split; [lia|reflexivity]|]. cbn [map fold_right]. destruct (seg_count _ _ Hx) as (K1 & K2). split; [lia|].
    intros E. assert (E1 : count_of (snd x) = Z.of_nat (length (batch (fst x)))) by lia. rewrite (K2 E1). f_equal. apply I2. lia.
  Qed.
  Lemma counted_all : forall faulty head sources n p, psteps rows_of enc faulty n (at_start head sources) p -> all_done p ->
    total_records p = fold_right Z.add 0 (map (fun d => Z.of_nat (length (batch d))) sources) ->
    exists order, Permutation sources order /\ po_file p = head ++ concat (map bytes_of order).
  Proof.
    intros faulty head sources n p Hs Hd Ht. destruct (faulty_end _ _ _ _ _ Hs Hd) as (log & segs & Hp & F & Hf & Hc). exists (map fst log). split; [exact Hp|].
    destruct (full_count _ _ F) as [_ K]. rewrite <- K; [exact Hf|]. rewrite <- Hc, Ht. apply sum_permutation. now apply Permutation_map.
  Qed.
  Definition readable (x : D * work A) : Prop := match snd x with WDone _ => exists o, rows_of (fst x) = Ok o | WWait b | WWrite b _ => rows_of (fst x) = Ok (Some b) | _ => True end.
  Lemma readable_at : forall l1 x l2, Forall readable (l1 ++ x :: l2) <-> readable x /\ Forall readable (l1 ++ l2).
  Proof. intros. rewrite !Forall_app. split; [intros [H1 H2]; inversion H2; tauto|]. intros (H1 & H2 & H3). split; [assumption|now constructor]. Qed.
  Lemma readable_step : forall faulty p q, pstep rows_of enc faulty p q -> Forall readable (po_work p) -> Forall readable (po_work q).
  Proof.
    intros faulty p q Hs Ha. destruct Hs; cbn [po_work] in *; apply readable_at in Ha as [Hx Ha]; apply readable_at; (split; [|exact Ha]); unfold readable in *; cbn [snd fst] in *; eauto.
  Qed.
  Lemma readable_steps : forall faulty n p q, psteps rows_of enc faulty n p q -> Forall readable (po_work p) -> Forall readable (po_work q).
  Proof. intros faulty n p q Hs. induction Hs as [|n p q r H1 _ IH]; intros Hi; [exact Hi|]. apply IH. eapply readable_step; eauto. Qed.
  Lemma done_readable : forall faulty head sources n p, psteps rows_of enc faulty n (at_start head sources) p -> all_done p -> Forall (fun d => exists o, rows_of d = Ok o) sources.
  Proof.
    intros faulty head sources n p Hs Hd. destruct (invf_steps _ _ _ _ _ _ Hs (invf_start head sources)) as (Hf & _).
    assert (K : Forall readable (po_work p)). { apply (readable_steps _ _ _ _ Hs). apply Forall_forall. intros x Hx. apply in_map_iff in Hx as (d & <- & _). exact Logic.I. }
    rewrite <- Hf. unfold all_done in Hd. clear Hf Hs. induction Hd as [|[d w] l (m & E) _ IH]; [constructor|]. cbn [map fst]. inversion K as [|? ? K1 K2]; subst. constructor; [|now apply IH].
    cbn [snd] in E. subst w. exact K1.
  Qed.
End Facts.
