(** * What a build without overflow checks reads (C03, C59, C62 continued)

    [Wrapping] is a build without overflow checks.  WrapSpec says what its
    integers denote and what the format is then. *)
From Verif Require Import Base VlqSpec Vlq Types Versioned VersionedSpec VersionedExact ByteTypes ByteFacts WrapSpec WrapFacts VlqOutcomes.
#[local] Open Scope string_scope.
#[local] Open Scope Z_scope.
#[local] Open Scope list_scope.

(** C03.  Over-long integers in such a build: exactly what they are read as. *)
Theorem C03_vlq_wrapping_exact_partial : forall input rest z, bytes_ok input ->
  (parse_vlq_int Wrapping input = Ok (rest, z) <-> exists g, input = g ++ rest /\ wrapped_rep z g).
Proof. exact wrapped_exact. Qed.
Print Assumptions C03_vlq_wrapping_exact_partial.

(** Nothing is misread up to ten bytes, except that the value is taken modulo 2^64. *)
Theorem C03_vlq_wrapping_ten_partial : forall g, bytes_ok g -> vlq_terminated g -> (length g <= 10)%nat ->
  as_i64 (wrapped_magnitude g) = as_i64 (vlq_magnitude g).
Proof. exact wrapped_ten. Qed.
Print Assumptions C03_vlq_wrapping_ten_partial.

Definition long4 : list Z := [136; 128; 128; 128; 128; 128; 128; 128; 128; 128; 0].
(** Four in eleven bytes; and an integer whose last two groups meet. *)
Example C03_wrapping_example : wrapped_rep 4 long4 /\ length long4 = 11%nat /\ parse_vlq_int Checked long4 = Panic /\
  parse_vlq_int Wrapping (long4 ++ [7]) = Ok ([7], 4) /\
  wrapped_rep (64 + 32) [128; 129; 128; 128; 128; 128; 128; 128; 128; 128; 1] /\
  parse_vlq_int Wrapping [128; 129; 128; 128; 128; 128; 128; 128; 128; 128; 1] = Ok ([], 96).
Proof.
  split; [|split; [reflexivity|split; [vm_compute; reflexivity|split; [vm_compute; reflexivity|split; [|vm_compute; reflexivity]]]]].
  all: (split; [repeat (constructor; [unfold byte_ok; lia|]); constructor|split; [cbn; repeat split; lia|vm_compute; reflexivity]]).
Qed.

(** The other outcomes: a build with checks panics at an eleventh byte and at
    minus 2^63, and nowhere else; the only error is the end of the input. *)
Theorem C03_vlq_panics_partial : forall input, bytes_ok input ->
  (parse_vlq_int Checked input = Panic <->
    (exists p b rest, input = p ++ b :: rest /\ length p = 10%nat /\ Forall (fun x => 128 <= x) p) \/
    (exists g rest, input = g ++ rest /\ vlq_terminated g /\ (length g <= 10)%nat /\ Z.odd (hd 0 g) = true /\ as_i64 (vlq_magnitude g) = - two63)).
Proof. exact checked_panics. Qed.
Print Assumptions C03_vlq_panics_partial.
Theorem C03_vlq_errors_partial : forall input e, bytes_ok input ->
  (parse_vlq_int Checked input = Err e <-> e = ENom /\ Forall (fun x => 128 <= x) input /\ (length input <= 10)%nat) /\
  (parse_vlq_int Wrapping input = Err e <-> e = ENom /\ Forall (fun x => 128 <= x) input).
Proof. exact (fun input e H => conj (checked_errors input e H) (wrapping_errors input e H)). Qed.
Print Assumptions C03_vlq_errors_partial.
Example C03_panics_example : parse_vlq_int Checked [129; 128; 128; 128; 128; 128; 128; 128; 128; 2] = Panic /\
  as_i64 (vlq_magnitude [129; 128; 128; 128; 128; 128; 128; 128; 128; 2]) = - two63 /\
  parse_vlq_int Checked (repeat 128 10) = Err ENom /\ parse_vlq_int Checked (repeat 128 11) = Panic /\ parse_vlq_int Wrapping (repeat 128 11) = Err ENom.
Proof. repeat split; vm_compute; reflexivity. Qed.

(** C59.  The builds accept the same things on inputs without nine
    continuation bytes in a row ... *)
Theorem C59_both_builds : forall m name t l r v, In (name, t) ba_all -> input_ok l -> no_run 9 l ->
  (vparse m t l = Ok (r, v) <-> exists bs, l = bs ++ r /\ venc false t v bs).
Proof. exact byte_exact_any. Qed.
Print Assumptions C59_both_builds.

(** ... and on any input a build without checks accepts the encodings whose
    integers may be over-long, read as [wrapped_rep] says. *)
Theorem C59_without_checks : forall name t l r v, In (name, t) ba_all -> input_ok l ->
  (vparse Wrapping t l = Ok (r, v) <-> exists bs, l = bs ++ r /\ venc_by wrapped_rep t v bs).
Proof. exact (fun name t l r v Hin => vparse_wrapping t (ba_wf name t Hin) l r v). Qed.
Print Assumptions C59_without_checks.

(** A blob of two bytes whose length is written in eleven. *)
Definition long_blob : list Z := [5; 2; 0; 2; 132; 128; 128; 128; 128; 128; 128; 128; 128; 128; 0; 65; 66].
Example C59_wrapping_example : In ("GameSThumbnail", ba_GameSThumbnail) ba_all /\ input_ok (long_blob ++ [9]) /\
  vparse Checked ba_GameSThumbnail (long_blob ++ [9]) = Panic /\
  vparse Wrapping ba_GameSThumbnail (long_blob ++ [9]) = Ok ([9], VStruct [("m_file", VBytes [65; 66])]) /\
  venc_by wrapped_rep ba_GameSThumbnail (VStruct [("m_file", VBytes [65; 66])]) long_blob.
Proof.
  assert (I1 : In ("GameSThumbnail", ba_GameSThumbnail) ba_all) by (do 5 right; left; reflexivity).
  assert (R : vparse Wrapping ba_GameSThumbnail (long_blob ++ []) = Ok ([], VStruct [("m_file", VBytes [65; 66])])) by (vm_compute; reflexivity).
  split; [exact I1|]. split; [split; [repeat (constructor; [unfold byte_ok; lia|]); constructor|reflexivity]|].
  split; [vm_compute; reflexivity|]. split; [vm_compute; reflexivity|].
  apply (vparse_wrapping ba_GameSThumbnail) in R; [|reflexivity|split; [repeat (constructor; [unfold byte_ok; lia|]); constructor|reflexivity]].
  destruct R as (bs & E & V). rewrite !app_nil_r in E. subst bs. exact V.
Qed.

(** C62.  Truncated input in every build. *)
Theorem C62_truncated_bytes_any_build : forall m name t v bs l more, In (name, t) ba_all ->
  venc false t v bs -> bs = l ++ more -> more <> [] -> forall r, vparse m t l <> Ok r.
Proof. exact byte_truncated_any. Qed.
Print Assumptions C62_truncated_bytes_any_build.
Theorem C62_truncated_bytes_without_checks : forall name t v bs l more, In (name, t) ba_all ->
  venc_by wrapped_rep t v bs -> bs = l ++ more -> more <> [] -> forall r, vparse Wrapping t l <> Ok r.
Proof. exact byte_truncated_wrapping. Qed.
Print Assumptions C62_truncated_bytes_without_checks.
Example C62_wrapping_example : vparse Wrapping ba_GameSThumbnail (firstn 16 long_blob) = Err ENom.
Proof. vm_compute. reflexivity. Qed.
