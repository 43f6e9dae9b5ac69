(** * C51: the search for replays *)
From Verif Require Import Base Files FilesFacts.
#[local] Open Scope string_scope.
#[local] Open Scope Z_scope.
#[local] Open Scope list_scope.

(** C51.  For any tree, endless ones and ones with unreadable parts included:
    no panic, at most [max_files] results, each a replay file at a depth from 1
    to [max_depth] below the source. *)
Theorem C51_limits : forall bd t max_depth source max_files, 0 <= max_files ->
  get_matching_files bd t max_depth source max_files <> Panic /\
  forall l, get_matching_files bd t max_depth source max_files = Ok l ->
    Z.of_nat (length l) <= max_files /\
    Forall (fun p => exists names, p = source ++ names /\ replay_below t source names /\ (length names <= max_depth)%nat) l.
Proof. intros bd t d source max_files. exact (files_ok bd t d source max_files). Qed.
Print Assumptions C51_limits.
(** If what lies within [max_depth] levels can be read, there is a list of
    exactly the replays there, each once, and the result is its beginning. *)
Theorem C51_complete : forall bd t max_depth source, readable_below t max_depth source -> exists all,
  NoDup all /\
  (forall p, In p all <-> exists names, p = source ++ names /\ replay_below t source names /\ (length names <= max_depth)%nat) /\
  forall max_files, 0 <= max_files -> get_matching_files bd t max_depth source max_files = Ok (firstn (Z.to_nat max_files) all).
Proof.
  intros bd t d source Hr. exists (found t d source). split; [exact (found_NoDup t d source Hr)|]. split; [exact (found_spec t d source)|exact (files_found bd t d source Hr)].
Qed.
Print Assumptions C51_complete.
(** Replay files are those with something before a final ".SC2Replay". *)
Theorem C51_names : forall name, is_replay_name name = true <-> exists a, a <> "" /\ name = (a ++ ".SC2Replay")%string.
Proof. exact replay_name. Qed.
Print Assumptions C51_names.
(** A directory with a link to itself, two replays, a hidden file without
    extension and another file. *)
Definition looping : tree := fun p =>
  match last p "" with
  | "here" | "d" => NDir (Some (map Some ["a.SC2Replay"; "d"; ".SC2Replay"; "b.txt"; "c.x.SC2Replay"]))
  | "b.txt" | "a.SC2Replay" | "c.x.SC2Replay" | ".SC2Replay" => NFile
  | _ => NOther
  end.
Lemma last_app : forall (p : path) n, last (p ++ [n]) "" = n.
Proof. intros p n. apply last_last. Qed.
Lemma looping_readable : forall d p, last p "" = "here" \/ last p "" = "d" -> readable_below looping d p.
Proof.
  induction d as [|d IH]; intros p Hp; [constructor|]. eapply readable_dir.
  - unfold looping. destruct Hp as [-> | ->]; reflexivity.
  - repeat (constructor; [cbn; intuition discriminate|]). constructor.
  - intros n Hn. cbn [In] in Hn. destruct Hn as [<-|[<-|[<-|[<-|[<-|[]]]]]]; try (apply readable_not_dir; unfold is_dir, looping; rewrite last_app; reflexivity). apply IH. right. apply last_app.
Qed.
Example C51_example : readable_below looping 3 ["here"] /\
  get_matching_files Checked looping 2 ["here"] 10 = Ok [["here"; "a.SC2Replay"]; ["here"; "d"; "a.SC2Replay"]; ["here"; "d"; "c.x.SC2Replay"]; ["here"; "c.x.SC2Replay"]] /\
  get_matching_files Checked looping 3 ["here"] 3 = Ok [["here"; "a.SC2Replay"]; ["here"; "d"; "a.SC2Replay"]; ["here"; "d"; "d"; "a.SC2Replay"]].
Proof. split; [apply looping_readable; left; reflexivity|]. split; vm_compute; reflexivity. Qed.
