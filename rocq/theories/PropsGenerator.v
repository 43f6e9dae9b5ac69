(** * Properties of the code generator (C110-C113)

    [gen Decl t] is the decoder [s2protocol generate] writes for a declaration
    (Generator); [layout t] is Blizzard's format of it, [plain] the
    declarations meant in C110, and [reads] says that a decoder gets every
    value of a format back (GeneratorSpec). *)
From Verif Require Import Base BitSpec BitPacked Types BitFormat BitTotal BitEncode BitFacts Generator GeneratorSpec GeneratorFacts.
#[local] Open Scope string_scope.
#[local] Open Scope Z_scope.
#[local] Open Scope list_scope.

(** [0 <= x <= n], as literals. *)
Definition up_to (n : Z) : bounds := mkbounds false 0 true n true Lit.
Definition from_to (lo hi : Z) : bounds := mkbounds false lo true hi true Lit.
(** [-2^n <= x < 2^n] and [0 <= x < 2^n]. *)
Definition signed (n : nat) : bounds := mkbounds false (- 2 ^ Z.of_nat n) true (2 ^ Z.of_nat n) false (Pow n).
Definition unsigned (n : nat) : bounds := mkbounds false 0 true (2 ^ Z.of_nat n) false (Pow n).
Definition exactly (n : Z) : bounds := mkbounds true n true n true Lit.

(** C110. *)
Theorem C110_generated_partial : forall t, plain Decl t = true -> exists k, gen Decl t = Ok k /\ reads k (layout t).
Proof. exact generated_reads. Qed.
Print Assumptions C110_generated_partial.

(** A position where the encoding of a value starts, and what the decoder makes of it. *)
Lemma misread : forall k t v bits c, bencode t (snd c) v = Some bits -> wf_bty t = true -> cursor_ok c -> stream c = bits ->
  quirk_free Wrapping t v = true -> run Wrapping k c <> Ok (advance c (length bits), v) -> ~ reads k t.
Proof.
  intros k t v bits c He Hw Hc Es Hq Hn H. apply Hn. apply (H Wrapping c v bits []); auto.
  - apply bencode_benc; auto. apply Hc.
  - rewrite app_nil_r. exact Es.
Qed.

Definition cache_handle : ntype := NBlob (exactly 40).
Definition race_count : ntype := NInt (from_to 1 256).
Definition level : ntype := NInt (from_to (-100) 1).
Definition clan_tag : ntype := NString (up_to 7).
Definition slots : ntype := NArray false (up_to 15) (NUser (NInt (unsigned 8))).
Definition maybe_byte : ntype := NStruct [("m_maybe", NOpt (NInt (up_to 255)))].
Definition inner_blob : ntype := NStruct [("m_flag", NBool); ("m_data", NBlob (up_to 7))].
Definition reason : ntype := NEnum [(0, "ENone"); (5, "EOther")].
Definition amount : ntype := NStruct [("m_amount", NInum (up_to 255))].
Definition maybe_list : ntype := NStruct [("m_list", NOpt (NArray true (up_to 16) (NUser (NInt (unsigned 8)))))].
Definition picks : ntype := NStruct [("m_picks", NBitArray (up_to 6))].

(** False in full.  An exact blob of 40 bytes is read as the 6 bits of the
    number 40; the bounds of an integer are not subtracted; a negative one is
    given a single bit more than its upper bound; a string or an array whose
    greatest length is one less than a power of two has a length of one bit
    too many; an optional integer is read from its presence bit on; a blob
    inside a struct is not byte-aligned; the values of an enum may not have
    gaps; a bit array or an InumType inside a struct stops the generator; and
    for an optional DynArrayType the text is no Rust. *)
Theorem C110_generated_refuted :
  (forall t, In t [cache_handle; race_count; level; clan_tag; slots; maybe_byte; inner_blob; reason] ->
    exists k, gen Decl t = Ok k /\ wf_bty (layout t) = true /\ ~ reads k (layout t)) /\
  gen Decl cache_handle = Ok (KBits 6) /\ gen Decl picks = Panic /\ gen Decl amount = Panic /\ gen Decl maybe_list = Err no_compile.
Proof.
  split; [|repeat split; reflexivity]. intros t H. cbn [In] in H.
  destruct H as [<-|[<-|[<-|[<-|[<-|[<-|[<-|[<-|[]]]]]]]]]; eexists; (split; [reflexivity|]); (split; [reflexivity|]).
  - apply (misread _ _ (VBytes (repeat 7 40)) (flat_map byte_bits (repeat 7 40)) (repeat 7 40, 0%nat));
      try (vm_compute; reflexivity); [split; [apply byte_list_ok; reflexivity|split; [cbn; lia|discriminate]]|vm_compute; discriminate].
  - apply (misread _ _ (VInt 3) (byte_bits 2) ([2], 0%nat));
      try (vm_compute; reflexivity); [split; [apply byte_list_ok; reflexivity|split; [cbn; lia|discriminate]]|vm_compute; discriminate].
  - apply (misread _ _ (VInt (-100)) [false; false; false; false; false; false; false] ([0], 1%nat));
      try (vm_compute; reflexivity); [split; [apply byte_list_ok; reflexivity|split; [cbn; lia|discriminate]]|vm_compute; discriminate].
  - apply (misread _ _ (VBytes [65]) (skipn 3 (byte_bits 8) ++ byte_bits 65) ([8; 65], 3%nat));
      try (vm_compute; reflexivity); [split; [apply byte_list_ok; reflexivity|split; [cbn; lia|discriminate]]|vm_compute; discriminate].
  - apply (misread _ _ (VList []) [false; false; false; false] ([0], 4%nat));
      try (vm_compute; reflexivity); [split; [apply byte_list_ok; reflexivity|split; [cbn; lia|discriminate]]|vm_compute; discriminate].
  - apply (misread _ _ (VStruct [("m_maybe", VOpt (Some (VInt 0)))]) (true :: repeat false 8) ([128; 0], 7%nat));
      try (vm_compute; reflexivity); [split; [apply byte_list_ok; reflexivity|split; [cbn; lia|discriminate]]|vm_compute; discriminate].
  - apply (misread _ _ (VStruct [("m_flag", VBool true); ("m_data", VBytes [65])]) (byte_bits 3 ++ byte_bits 65) ([3; 65], 0%nat));
      try (vm_compute; reflexivity); [split; [apply byte_list_ok; reflexivity|split; [cbn; lia|discriminate]]|vm_compute; discriminate].
  - apply (misread _ _ (VEnum "EOther") [true; false; true] ([160], 5%nat));
      try (vm_compute; reflexivity); [split; [apply byte_list_ok; reflexivity|split; [cbn; lia|discriminate]]|vm_compute; discriminate].
Qed.
Print Assumptions C110_generated_refuted.

(** A declaration with most of the shapes. *)
Definition sample_decl : ntype := NStruct [
  ("m_count", NInt (up_to 255));
  ("m_delta", NUser (NInt (signed 31)));
  ("m_hash", NUser (NInt (unsigned 64)));
  ("m_name", NOpt (NUser (NString (up_to 79))));
  ("m_flags", NUser (NBitArray (up_to 64)));
  ("m_observe", NUser (NEnum [(0, "ENone"); (2, "EReferee"); (1, "ESpectator")]));
  ("m_units", NArray false (up_to 500) (NUser (NInt (unsigned 32))));
  ("m_handles", NUser (NArray false (up_to 10) (NUser (NChoice [
     (0, "MNone", NNull); (1, "MSmall", NUser (NInt (unsigned 6))); (2, "MMaybe", NOpt (NUser (NInt (unsigned 8))))]))));
  ("m_eventData", NChoice [(0, "MText", NUser (NString (up_to 50))); (1, "MNone", NNull)]);
  ("m_event", NUser (NEvents [(0, "EPing", None); (1, "EChat", Some (NStruct [("m_type", NFourcc)]))]))].
Definition sample_decl_value : val := VStruct [
  ("m_count", VInt 200); ("m_delta", VInt (-5)); ("m_hash", VInt 12345678901);
  ("m_name", VOpt (Some (VBytes [71; 71]))); ("m_flags", VBytes [5]); ("m_observe", VEnum "EReferee");
  ("m_units", VList [VInt 1; VInt 4294967295]);
  ("m_handles", VList [VChoice "MSmall" (VInt 63); VChoice "MMaybe" (VOpt None); VChoice "MNone" VNull]);
  ("m_eventData", VChoice "MText" (VBytes [104; 105]));
  ("m_event", VChoice "EChat" (VStruct [("m_type", VBytes [84; 101; 115; 116])]))].

Example C110_example : plain Decl sample_decl = true /\ quirk_free Checked (layout sample_decl) sample_decl_value = true /\
  exists k bits, gen Decl sample_decl = Ok k /\ bencode (layout sample_decl) 3 sample_decl_value = Some bits /\ Nat.ltb 200 (length bits) = true /\
    let c := (pack_bits (repeat false 3 ++ bits), 3%nat) in
    run Checked k c = Ok (advance c (length bits), sample_decl_value).
Proof.
  split; [vm_compute; reflexivity|]. split; [vm_compute; reflexivity|].
  eexists. eexists. split; [vm_compute; reflexivity|]. split; [vm_compute; reflexivity|]. split; [vm_compute; reflexivity|].
  vm_compute. reflexivity.
Qed.

(** C111. *)
Theorem C111_array_lengths_partial : forall d b t k, plain_length b = true -> plain Decl t = true ->
  gen Decl (NArray d b (NUser t)) = Ok k ->
  (reads k (layout (NArray d b (NUser t))) <-> is_pow2 (highest b + 1) = false).
Proof. exact array_decl_iff. Qed.
Print Assumptions C111_array_lengths_partial.

Theorem C111_array_lengths_refuted : exists d b t k, plain_length b = true /\ plain Decl t = true /\
  gen Decl (NArray d b (NUser t)) = Ok k /\ ~ reads k (layout (NArray d b (NUser t))).
Proof.
  exists false, (up_to 15), (NInt (unsigned 8)), (KArray 5 (KInt 0 8)). split; [reflexivity|]. split; [reflexivity|]. split; [reflexivity|].
  intros H. apply (array_decl_iff false (up_to 15) (NInt (unsigned 8)) (KArray 5 (KInt 0 8))) in H; [discriminate|reflexivity|reflexivity|reflexivity].
Qed.
Print Assumptions C111_array_lengths_refuted.

Example C111_example : plain_length (up_to 16) = true /\ plain Decl (NInt (unsigned 8)) = true /\
  gen Decl (NArray false (up_to 16) (NUser (NInt (unsigned 8)))) = Ok (KArray 5 (KInt 0 8)) /\ is_pow2 (highest (up_to 16) + 1) = false /\
  is_pow2 (highest (up_to 15) + 1) = true.
Proof. repeat split; vm_compute; reflexivity. Qed.

(** C112. *)
Theorem C112_enum_tags_partial : forall vs k, gen Decl (NEnum vs) = Ok k -> vs <> [] -> NoDup (map fst vs) ->
  Z.of_nat (length vs) <= 2 ^ 20 -> (forall z s, In (z, s) vs -> 0 <= z < 2 ^ 32) ->
  (reads k (layout (NEnum vs)) <-> forall z s, In (z, s) vs -> z < 2 ^ Z.log2_up (Z.of_nat (length vs))).
Proof. exact enum_decl_iff. Qed.
Print Assumptions C112_enum_tags_partial.

Theorem C112_enum_tags_refuted : exists vs k, gen Decl (NEnum vs) = Ok k /\ vs <> [] /\ NoDup (map fst vs) /\
  Z.of_nat (length vs) <= 2 ^ 20 /\ (forall z s, In (z, s) vs -> 0 <= z < 2 ^ 32) /\ ~ reads k (layout (NEnum vs)).
Proof.
  exists [(0, "ENone"); (5, "EOther")], (KEnum 1 [(0, "ENone"); (5, "EOther")]).
  assert (R : forall z s, In (z, s) [(0, "ENone"); (5, "EOther")] -> 0 <= z < 2 ^ 32).
  { intros z s [H|[H|[]]]; injection H as <- <-; lia. }
  assert (N : NoDup (map fst [(0, "ENone"); (5, "EOther")])).
  { cbn. repeat (apply NoDup_cons; [cbn; intuition congruence|]). apply NoDup_nil. }
  split; [reflexivity|]. split; [discriminate|]. split; [exact N|]. split; [cbn; lia|]. split; [exact R|].
  intros H. pose proof (enum_decl_iff [(0, "ENone"); (5, "EOther")] (KEnum 1 [(0, "ENone"); (5, "EOther")]) eq_refl ltac:(discriminate) N ltac:(cbn; lia) R) as [Q _].
  specialize (Q H). clear H. rename Q into H.
  specialize (H 5 "EOther" (or_intror (or_introl eq_refl))). vm_compute in H. discriminate.
Qed.
Print Assumptions C112_enum_tags_refuted.

Example C112_example : gen Decl (NEnum [(0, "A"); (2, "C"); (3, "D")]) = Ok (KEnum 2 [(0, "A"); (2, "C"); (3, "D")]) /\
  forall z s, In (z, s) [(0, "A"); (2, "C"); (3, "D")] -> z < 2 ^ Z.log2_up 3.
Proof. split; [reflexivity|]. intros z s [H|[H|[H|[]]]]; injection H as <- <-; reflexivity. Qed.

(** C113. *)
Theorem C113_int_bounds_partial : forall b o n, gen Decl (NInt b) = Ok (KInt o n) -> lowest b <= highest b ->
  highest b - lowest b < 2 ^ 32 -> - 2 ^ 60 <= b_min b <= 2 ^ 60 ->
  (reads (KInt o n) (layout (NInt b)) <-> b_min_incl b = true /\ n = width (lowest b) (highest b)).
Proof. exact int_decl_iff. Qed.
Print Assumptions C113_int_bounds_partial.
(** Bounds written as literals: when the bits of the greatest value, and one
    more for a negative bound, are as many as the range needs. *)
Theorem C113_literals_partial : forall b, b_exact b = false -> b_min_incl b = true -> b_expr b = Lit -> 0 < highest b -> lowest b <= highest b ->
  highest b - lowest b < 2 ^ 32 -> - 2 ^ 60 <= b_min b <= 2 ^ 60 ->
  exists k, gen Decl (NInt b) = Ok k /\ (reads k (layout (NInt b)) <-> Z.of_nat (width (lowest b) (highest b)) = Z.log2 (highest b) + (if b_min b <? 0 then 2 else 1)).
Proof. exact int_literal_iff. Qed.
Print Assumptions C113_literals_partial.

Theorem C113_int_bounds_refuted : exists b o n, gen Decl (NInt b) = Ok (KInt o n) /\ lowest b <= highest b /\
  highest b - lowest b < 2 ^ 32 /\ - 2 ^ 60 <= b_min b <= 2 ^ 60 /\ b_min_incl b = true /\ ~ reads (KInt o n) (layout (NInt b)).
Proof.
  exists (from_to 1 256), 1, 9%nat. split; [reflexivity|]. split; [cbn; lia|]. split; [cbn; lia|]. split; [cbn; lia|]. split; [reflexivity|].
  intros H. apply (int_decl_iff (from_to 1 256) 1 9 eq_refl) in H; [|cbn; lia|cbn; lia|cbn; lia]. destruct H as [_ H]. vm_compute in H. discriminate.
Qed.
Print Assumptions C113_int_bounds_refuted.

Example C113_example : gen Decl (NInt (from_to 3 200)) = Ok (KInt 3 8) /\ width 3 200 = 8%nat /\
  gen Decl (NInt (from_to 100 200)) = Ok (KInt 100 8) /\ width 100 200 = 7%nat /\
  b_exact (from_to 3 200) = false /\ b_min_incl (from_to 3 200) = true /\ b_expr (from_to 3 200) = Lit /\ highest (from_to 3 200) = 200 /\ lowest (from_to 3 200) = 3.
Proof. repeat split; vm_compute; reflexivity. Qed.
