(** * C93: the short reader of the header *)
From Verif Require Import Base Types Versioned VersionedEncode ByteTypes Header HeaderFacts ArchiveSpec PropsArchive.
#[local] Open Scope string_scope.
#[local] Open Scope Z_scope.
#[local] Open Scope list_scope.

(** C93.  If the short and the full reader both read a header, they read the same
    signature and the same version ... *)
Theorem C93_agree : forall m l r s ver r' v, header_parse m l = Ok (r, (s, ver)) -> vparse m ba_ReplaySHeader l = Ok (r', v) ->
  exists rest, v = VStruct (("m_signature", VBytes s) :: ("m_version", ver) :: rest) /\ forall n x, In (n, x) rest -> n <> "m_signature" /\ n <> "m_version".
Proof. exact readers_agree. Qed.
Print Assumptions C93_agree.
(** ... and both read whatever the reference encoder writes. *)
Theorem C93_written : forall m v bs rest, vencode ba_ReplaySHeader v = Some bs ->
  vparse m ba_ReplaySHeader (bs ++ rest) = Ok (rest, v) /\
  exists s ver fs tail, v = VStruct (("m_signature", VBytes s) :: ("m_version", ver) :: fs) /\ header_parse m (bs ++ rest) = Ok (tail, (s, ver)).
Proof. intros m v bs rest E. split; [exact (vencode_round_trip m ba_ReplaySHeader v bs rest eq_refl E)|exact (short_reads m v bs rest E)]. Qed.
Print Assumptions C93_written.
(** A header; cut after the version only the short reader reads it. *)
Example C93_example : vencode ba_ReplaySHeader (a_header signature_text 87702) = Some good_header /\
  (exists r ver, header_parse Checked good_header = Ok (r, (signature_text, ver)) /\ length r = 35%nat /\
    header_parse Checked (firstn (length good_header - 35) good_header) = Ok ([], (signature_text, ver)) /\
    vparse Checked ba_ReplaySHeader (firstn (length good_header - 35) good_header) = Err ENom) /\
  exists r v, vparse Checked ba_ReplaySHeader good_header = Ok (r, v).
Proof.
  split; [vm_compute; reflexivity|]. split; [eexists; eexists; split; [vm_compute; reflexivity|]; split; [vm_compute; reflexivity|]; split; vm_compute; reflexivity|]. eexists. eexists. vm_compute. reflexivity.
Qed.
