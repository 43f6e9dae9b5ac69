(** * The short reader of the replay header: src/protocol_version_decoder.rs *)
From Verif Require Import Base Vlq Types Versioned ByteTypes.
#[local] Open Scope Z_scope.
#[local] Open Scope list_scope.

(** Model of src/protocol_version_decoder.rs:44-48 [ProtocolHeader::parse_m_signature]. *)
Definition header_signature (m : build) (input : list Z) : outcome (list Z * list Z) :=
  do tail <- validate_tag 0 input;
  tagged_blob m tail.
(** Model of src/protocol_version_decoder.rs:26-41 [ProtocolHeader::parse]: the
    signature and the version. *)
Definition header_parse (m : build) (input : list Z) : outcome (list Z * (list Z * val)) :=
  do tail <- validate_tag STRUCT_TAG input;
  do tail <- validate_tag 18 tail;
  do (tail, signature) <- header_signature m tail;
  do tail <- validate_tag 2 tail;
  do (tail, version) <- vparse m ba_SVersion tail;
  Ok (tail, (signature, version)).
